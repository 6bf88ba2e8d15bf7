(** Many lists, each a sequence of its own, and a count of the memory they need. *)
From Verif Require Import Base ListModel ListSpec PoolModel.

Section Spec.
Context {D : Type}.

(** The lists; how many free nodes there are; how many elements all lists together have, and
    the most they have ever had. *)
Record many := mkMany { m_lists : nat -> option (alist (D:=D)); m_spare : nat; m_used : nat; m_peak : nat }.
Definition nothing : many := mkMany (fun _ => None) 0 0 0.

Definition adds (o : lop (D:=D)) : bool :=
  match o with OAppend _ _ | OPrepend _ _ | OInsert _ _ _ => true | _ => false end.
(** a call of which only the success of its allocation matters (ListSpec.astep) *)
Definition served (o : lop (D:=D)) (b : bool) : lop :=
  let a := if b then Some 0 else None in
  match o with OAppend x _ => OAppend x a | OPrepend x _ => OPrepend x a | OInsert i x _ => OInsert i x a | _ => o end.

Definition change (m : many) (k : nat) (l : option (alist (D:=D))) (spare used : nat) : many :=
  mkMany (fun j => if j =? k then l else m_lists m j) spare used (Nat.max used (m_peak m)).

(** A call changes the list it is made on and no other.  Memory is asked for only when there is
    no free node, ten nodes at a time; a call fails only if that fails. *)
Definition mstep (m : many) (c : call (D:=D)) : many * lret :=
  match c with
  | PNew k => (change m k (Some empty) (m_spare m) (m_used m), RNone)
  | PDo k o mem =>
      match m_lists m k with
      | None => (m, RNone)
      | Some l =>
          if adds o then
            match m_spare m, mem with
            | 0, None => let '(l', r) := astep l (served o false) in (change m k (Some l') 0 (m_used m), r)
            | 0, Some _ => let '(l', r) := astep l (served o true) in (change m k (Some l') 9 (S (m_used m)), r)
            | S n, _ => let '(l', r) := astep l (served o true) in (change m k (Some l') n (S (m_used m)), r)
            end
          else
            let '(l', r) := astep l o in
            let d := length (a_list l) - length (a_list l') in
            (change m k (Some l') (m_spare m + d) (m_used m - d), r)
      end
  | PDestroy k =>
      match m_lists m k with
      | None => (m, RNone)
      | Some l =>
          let d := length (a_list l) in
          (change m k None (m_spare m + d) (m_used m - d), RList (a_list l))
      end
  end.
Fixpoint mrun (m : many) (cs : list call) : many * list lret :=
  match cs with
  | [] => (m, [])
  | c :: cs => let '(m1, r1) := mstep m c in let '(m2, r2) := mrun m1 cs in (m2, r1 :: r2)
  end.

(** What the callers keep to: a list is used after it is created and before it is destroyed, an
    iterator likewise (of its list). *)
Definition call_ok (m : many) (c : call (D:=D)) : Prop :=
  match c with
  | PNew k => m_lists m k = None
  | PDestroy k => m_lists m k <> None
  | PDo k o _ =>
      exists l, m_lists m k = Some l /\
        match o with
        | OIter id => ~ In id (map fst (a_its l))
        | OReset id | OEnd id | ONext id | OFind id _ | ORemove id | OInsert id _ _ => In id (map fst (a_its l))
        | _ => True
        end
  end.
Fixpoint calls_ok (m : many) (cs : list call) : Prop :=
  match cs with
  | [] => True
  | c :: cs => call_ok m c /\ calls_ok (fst (mstep m c)) cs
  end.

(** The elements of the list [k], read off the shared memory. *)
Definition contents (s : pool (D:=D)) (k : nat) : option (list D) :=
  match p_lists s k with Some l => Some (elems (set_heap l (p_mem s))) | None => None end.
End Spec.

Section View.
Context {D : Type}.
(** the calls on one list, and what they returned *)
Definition on (k : nat) (c : call (D:=D)) : bool := match c with PNew j | PDo j _ _ | PDestroy j => j =? k end.
Definition about (k : nat) (cs : list (call (D:=D))) (rs : list (lret (D:=D))) : list lret :=
  map snd (filter (fun p => on k (fst p)) (combine cs rs)).
(** malloc() would succeed *)
Definition memory (c : call (D:=D)) : Prop := match c with PDo _ _ None => False | _ => True end.
(** the elements that the lists [ks] have together *)
Definition size (s : pool (D:=D)) (k : nat) : nat := match contents s k with Some l => length l | None => 0 end.
Definition sizes (s : pool (D:=D)) (ks : list nat) : nat := list_sum (map (size s) ks).
End View.
