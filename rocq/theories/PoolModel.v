(** Many lists and the memory they share: src/list.c:98-103, 174-220, 568-728.

    The functions on one list are those of ListModel.v, run on a memory in which the nodes of
    all lists and the free nodes are.  A free node keeps its datum; its next pointer links the
    free nodes, as in the code.  A node that is handed out may not be read before it is written.

    Simplifications: the calls are done one after the other (each list has a mutex that is held
    for a whole call, the free nodes have another one; two calls on different lists have no
    other memory in common, which is what is proved); nodes that one call gives back are given
    back in the order of their addresses; the same scheme for the structures of lists and
    iterators (636-654, 680-708, 721-728) is not repeated: they are named by numbers. *)
From Verif Require Import Base ListModel.

Section Pool.
Context {D : Type}.

(** list.c:98-103: [p_free] is freeListNodes; [p_brk]: how many nodes malloc() has given; the
    field l_heap of the lists is not used. *)
Record pool := mkPool { p_mem : heap (D:=D); p_free : option nat; p_brk : nat; p_lists : nat -> option (lst (D:=D)) }.

(** no malloc() yet *)
Definition start : pool := mkPool (fun _ => None) None 0 (fun _ => None).

(** list.c:664-672: the nodes of a new block; [j]: what is in them *)
Definition block (m : heap (D:=D)) (from : nat) (j : D) : heap :=
  fun b => if (from <=? b) && (b <? from + LIST_ALLOC)
           then Some (j, if b =? from + (LIST_ALLOC - 1) then None else Some (S b)) else m b.

(** list.c:657-677, list_node_alloc; [m]: what malloc() gives, if it succeeds *)
Definition list_node_alloc (s : pool) (m : option D) : res (pool * option nat) :=
  let s1 := match p_free s, m with
            | None, Some j => mkPool (block (p_mem s) (p_brk s) j) (Some (p_brk s)) (p_brk s + LIST_ALLOC) (p_lists s)
            | _, _ => s
            end in
  match p_free s1 with
  | None => Ok (s1, None)
  | Some p =>
      do n <- node (p_mem s1) p;
      Ok (mkPool (upd (p_mem s1) p None) (snd n) (p_brk s1) (p_lists s1), Some p)        (* 673-674 *)
  end.

(** list.c:711-718, list_node_free; [old]: what was in the node *)
Definition list_node_free (old : heap (D:=D)) (s : pool) (p : nat) : pool :=
  match old p with
  | Some (d, _) => mkPool (upd (p_mem s) p (Some (d, p_free s))) (Some p) (p_brk s) (p_lists s)
  | None => s
  end.

Definition some {A} (x : option A) : bool := match x with Some _ => true | None => false end.
(** the nodes that a call has given back (630, 212) *)
Definition gone (before after : heap (D:=D)) (n : nat) : list nat :=
  filter (fun p => some (before p) && negb (some (after p))) (seq 0 n).
Definition give_back (s : pool) (after : heap (D:=D)) : pool :=
  fold_left (list_node_free (p_mem s)) (gone (p_mem s) after (p_brk s)) (mkPool after (p_free s) (p_brk s) (p_lists s)).
Definition set_list (s : pool) (k : nat) (l : option (lst (D:=D))) : pool :=
  mkPool (p_mem s) (p_free s) (p_brk s) (fun j => if j =? k then l else p_lists s j).

(** list.c:583: the calls that take a node *)
Definition takes_node (o : lop (D:=D)) : bool :=
  match o with OAppend _ _ | OPrepend _ _ | OInsert _ _ _ => true | _ => false end.
Definition with_node (o : lop (D:=D)) (a : option nat) : lop :=
  match o with OAppend x _ => OAppend x a | OPrepend x _ => OPrepend x a | OInsert i x _ => OInsert i x a | _ => o end.

(** A call: list_create (174-188), one of the functions of ListModel with what malloc() would
    give, list_destroy (191-220). *)
Inductive call := PNew (k : nat) | PDo (k : nat) (o : lop (D:=D)) (m : option D) | PDestroy (k : nat).

Definition pstep (s : pool) (c : call) : res (pool * lret) :=
  match c with
  | PNew k => Ok (set_list s k (Some list_create), RNone)
  | PDo k o m =>
      match p_lists s k with
      | None => UB UseAfterFree
      | Some l =>
          do r0 <- (if takes_node o then list_node_alloc s m else Ok (s, None));
          let '(s1, a) := r0 in
          do r <- lstep (set_heap l (p_mem s1)) (with_node o a);
          Ok (set_list (give_back s1 (l_heap (fst r))) k (Some (fst r)), snd r)
      end
  | PDestroy k =>
      match p_lists s k with
      | None => UB UseAfterFree
      | Some l =>
          do r <- list_destroy (set_heap l (p_mem s));
          Ok (set_list (give_back s (fst r)) k None, RList (snd r))
      end
  end.
Fixpoint prun (s : pool) (cs : list call) : res (pool * list lret) :=
  match cs with
  | [] => Ok (s, [])
  | c :: cs => do r1 <- pstep s c; do r2 <- prun (fst r1) cs; Ok (fst r2, snd r1 :: snd r2)
  end.
End Pool.
