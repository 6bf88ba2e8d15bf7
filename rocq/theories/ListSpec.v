(** Lists and iterators as mathematical objects: a sequence, and for each iterator
    a place in it. *)
From Verif Require Import Base ListModel.
From Coq Require Import Permutation Sorted.

Section Spec.
Context {D : Type}.

(** An iterator: [cur] is the index of its current element (the one it delivered
    last and that can be removed through it); [pos] the index of the element it
    delivers next.  With a current element, pos = cur + 1. *)
Record cursor := mkCur { c_pos : nat; c_cur : bool }.

Definition insert_at (j : nat) (x : D) (l : list D) : list D := firstn j l ++ x :: skipn j l.
Definition remove_at (j : nat) (l : list D) : list D := firstn j l ++ skipn (S j) l.

(** Insertion before index [j].  A cursor behind [j] moves along with its element.
    A cursor whose next element is at [j] will deliver the new element if it has a
    current element before it; a cursor without one is considered behind it. *)
Definition cur_insert (j : nat) (c : cursor) : cursor :=
  if (if c_cur c then j <? c_pos c else j <=? c_pos c)
  then mkCur (S (c_pos c)) (c_cur c) else c.

(** Removal of the element at [j]. *)
Definition cur_remove (j : nat) (c : cursor) : cursor :=
  if S j =? c_pos c then mkCur j (if c_cur c then false else c_cur c)
  else if j <? c_pos c then mkCur (c_pos c - 1) (c_cur c)
  else if j =? c_pos c then mkCur j false
  else c.

Record alist := mkA { a_list : list D; a_its : list (nat * cursor) }.

Definition its_map (f : cursor -> cursor) (is : list (nat * cursor)) : list (nat * cursor) :=
  map (fun p => (fst p, f (snd p))) is.

Definition a_insert (j : nat) (x : D) (s : alist) : alist :=
  mkA (insert_at j x (a_list s)) (its_map (cur_insert j) (a_its s)).
Definition a_remove (j : nat) (s : alist) : alist :=
  mkA (remove_at j (a_list s)) (its_map (cur_remove j) (a_its s)).

(** Remove every element with [f] from index [j] on ([n] elements to look at). *)
Fixpoint a_delete_all (n j : nat) (f : D -> bool) (s : alist) : alist :=
  match n with
  | O => s
  | S n' =>
      match nth_error (a_list s) j with
      | None => s
      | Some d => if f d then a_delete_all n' j f (a_remove j s) else a_delete_all n' (S j) f s
      end
  end.

(** Insertion sort: an element smaller than its predecessor moves to just before
    the first element it is smaller than. *)
Fixpoint place (cmp : D -> D -> Z) (d : D) (l : list D) : list D :=
  match l with
  | [] => [d]
  | x :: t => if (cmp d x <? 0)%Z then d :: l else x :: place cmp d t
  end.

Definition last_opt (l : list D) : option D := nth_error l (length l - 1).

Fixpoint isort (cmp : D -> D -> Z) (done todo : list D) : list D :=
  match todo with
  | [] => done
  | x :: t =>
      match last_opt done with
      | Some y => if (cmp x y <? 0)%Z then isort cmp (place cmp x done) t
                  else isort cmp (done ++ [x]) t
      | None => isort cmp [x] t
      end
  end.

Fixpoint a_find (id : nat) (is : list (nat * cursor)) : option cursor :=
  match is with
  | [] => None
  | (i, c) :: is' => if i =? id then Some c else a_find id is'
  end.
Definition a_put (id : nat) (c : cursor) (s : alist) : alist :=
  mkA (a_list s) (map (fun p => if fst p =? id then (id, c) else p) (a_its s)).

(** Deliver the next element. *)
Definition advance (l : list D) (c : cursor) : cursor * option D :=
  match nth_error (skipn (c_pos c) l) 0 with
  | Some d => (mkCur (S (c_pos c)) true, Some d)
  | None => (mkCur (c_pos c) false, None)
  end.
(** Deliver elements until one satisfies [f] or there are none left. *)
Fixpoint seek (n : nat) (f : D -> bool) (l : list D) (c : cursor) : cursor * option D :=
  let '(c1, v) := advance l c in
  match n, v with
  | S n', Some d => if f d then (c1, v) else seek n' f l c1
  | _, _ => (c1, v)
  end.

Definition with_iter {A} (id : nat) (s : alist) (k : cursor -> A) (dflt : A) : A :=
  match a_find id (a_its s) with Some c => k c | None => dflt end.

Definition astep (s : alist) (o : lop) : alist * lret :=
  let l := a_list s in
  match o with
  | OAppend x None | OPrepend x None | OInsert _ x None => (s, RVal None)
  | OAppend x (Some _) => (a_insert (length l) x s, RVal (Some x))
  | OPrepend x (Some _) => (a_insert 0 x s, RVal (Some x))
  | OPop => match l with [] => (s, RVal None) | d :: _ => (a_remove 0 s, RVal (Some d)) end
  | OPeek => (s, RVal (nth_error l 0))
  | OCount => (s, RNum (length l))
  | OEmpty => (s, RBool (length l =? 0))
  | OFindFirst f => (s, RVal (find f l))
  | ODeleteAll f => (a_delete_all (length l) 0 f s, RList (filter f l))
  | OSort cmp =>
      (if 1 <? length l then mkA (isort cmp [] l) (its_map (fun _ => mkCur 0 false) (a_its s)) else s,
       RNone)
  | OIter id => (mkA l ((id, mkCur 0 false) :: a_its s), RNone)
  | OReset id => (a_put id (mkCur 0 false) s, RNone)
  | OEnd id => (mkA l (filter (fun p => negb (fst p =? id)) (a_its s)), RNone)
  | ONext id =>
      with_iter id s (fun c => let '(c1, v) := advance l c in (a_put id c1 s, RVal v)) (s, RNone)
  | OInsert id x (Some _) =>
      (* before the current element; where the iterator stands if there is none *)
      with_iter id s (fun c => (a_insert (c_pos c - (if c_cur c then 1 else 0)) x s, RVal (Some x)))
        (s, RNone)
  | OFind id f =>
      with_iter id s (fun c => let '(c1, v) := seek (length l) f l c in (a_put id c1 s, RVal v))
        (s, RNone)
  | ORemove id =>
      with_iter id s (fun c =>
        if c_cur c then (a_remove (c_pos c - 1) s, RVal (nth_error l (c_pos c - 1)))
        else (s, RVal None)) (s, RNone)
  end.

Fixpoint arun (s : alist) (os : list lop) : alist * list lret :=
  match os with
  | [] => (s, [])
  | o :: os' =>
      let '(s1, r1) := astep s o in
      let '(s2, r2) := arun s1 os' in (s2, r1 :: r2)
  end.

(** Callers create iterators under fresh names, use only existing ones, and nodes
    come from an allocator that never hands out a node in use. *)
Definition op_valid (nodes : list nat) (its : list nat) (o : lop (D:=D)) : Prop :=
  match o with
  | OIter id => ~ In id its
  | OReset id | OEnd id | ONext id | OFind id _ | ORemove id => In id its
  | OInsert id _ a => In id its /\ (forall p, a = Some p -> ~ In p nodes)
  | OAppend _ a | OPrepend _ a => forall p, a = Some p -> ~ In p nodes
  | _ => True
  end.

(** Elements an iterator still has to deliver. *)
Definition remaining (l : list D) (c : cursor) : list D := skipn (c_pos c) l.

Definition empty : alist := mkA [] [].
End Spec.

(** The caller's view of an execution: the allocator and iterator discipline holds
    along the run (the nodes in use are those of the model's list). *)
Fixpoint nodes_from {D} (n : nat) (h : heap (D:=D)) (p : option nat) : list nat :=
  match n, p with
  | S n', Some a => a :: match h a with Some (_, q) => nodes_from n' h q | None => [] end
  | _, _ => []
  end.
Definition nodes_of {D} (l : lst (D:=D)) : list nat := nodes_from (l_count l) (l_heap l) (l_head l).
Fixpoint run_valid {D} (l : lst (D:=D)) (os : list lop) : Prop :=
  match os with
  | [] => True
  | o :: os' =>
      op_valid (nodes_of l) (map i_id (l_iters l)) o /\
      match lstep l o with Ok (l1, _) => run_valid l1 os' | UB _ => True end
  end.

(** A comparison that is a total preorder. *)
Definition preorder {D} (cmp : D -> D -> Z) : Prop :=
  (forall x y, (cmp x y < 0 -> ~ cmp y x < 0)%Z) /\
  (forall x y z, (~ cmp y x < 0 -> ~ cmp z y < 0 -> ~ cmp z x < 0)%Z).
Definition in_order {D} (cmp : D -> D -> Z) (x y : D) : Prop := ~ (cmp y x < 0)%Z.
(** Elements that compare equal to [k]. *)
Definition same_as {D} (cmp : D -> D -> Z) (k x : D) : bool :=
  (0 <=? cmp x k)%Z && (0 <=? cmp k x)%Z.

(** The elements of a list, read off the structure. *)
Fixpoint elems_from {D} (n : nat) (h : heap (D:=D)) (p : option nat) : list D :=
  match n, p with
  | S n', Some a => match h a with Some (d, q) => d :: elems_from n' h q | None => [] end
  | _, _ => []
  end.
Definition elems {D} (l : lst (D:=D)) : list D := elems_from (l_count l) (l_heap l) (l_head l).

(** What the iterator [id] delivered during a run. *)
Fixpoint delivered {D} (id : nat) (os : list (lop (D:=D))) (rs : list lret) : list D :=
  match os, rs with
  | ONext i :: os', RVal (Some d) :: rs' =>
      if i =? id then d :: delivered id os' rs' else delivered id os' rs'
  | _ :: os', _ :: rs' => delivered id os' rs'
  | _, _ => []
  end.

(** An operation that happens while the iterator [id] traverses the list: it may
    insert and remove elements, by any means, as long as these are not among the
    elements [P]; the list is not sorted and the iterator itself is not restarted. *)
Definition undisturbed {D} (P : D -> bool) (id : nat) (o : lop (D:=D)) (r : lret) : Prop :=
  match o with
  | OAppend x _ | OPrepend x _ | OInsert _ x _ => P x = false
  | OPop | ORemove _ => forall d, r = RVal (Some d) -> P d = false
  | ODeleteAll _ => forall ds, r = RList ds -> Forall (fun d => P d = false) ds
  | OSort _ => False
  | OIter i | OReset i | OEnd i | OFind i _ => i <> id
  | _ => True
  end.

(** Users of the allocator: nodes handed out and not given back. *)
Inductive aop := AGet (ok : bool) | APut (p : nat).
Fixpoint al_run (s : allocator) (used : list nat) (os : list aop) : Prop :=
  match os with
  | [] => True
  | AGet ok :: os' =>
      let '(s1, r) := node_alloc s ok in
      match r with
      | Some p => ~ In p used /\ al_run s1 (p :: used) os'
      | None => ok = false /\ al_run s1 used os'
      end
  | APut p :: os' => In p used -> al_run (node_free s p) (remove Nat.eq_dec p used) os'
  end.
