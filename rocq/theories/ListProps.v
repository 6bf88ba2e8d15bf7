(** C13, C14, C15: the list library. *)
From Verif Require Import Base BaseProof ListModel ListSpec ListProof.
From Coq Require Import Permutation Sorted.

Section Props.
Context {D : Type}.

(** C13: for every sequence of calls, the linked structure with its iterators never
    follows a dangling pointer, never fails an assertion, and returns to each call
    what a plain sequence with cursors returns. *)
Theorem C13_behaves_as_sequence : forall (os : list (lop (D:=D))),
  run_valid list_create os ->
  exists s, lrun list_create os = Ok (s, snd (arun empty os)) /\
    elems s = a_list (fst (arun empty os)) /\ list_count s = length (elems s).
Proof.
  intros os V. destruct (run_ok os _ _ _ rep_empty V) as (s & l & E & R).
  exists s. split; [exact E|]. destruct R as (RP & AL & _).
  rewrite (elems_rep _ _ RP). split; [exact AL|]. unfold list_count. rewrite map_length. apply RP.
Qed.

(** C13: destroying the list hands every element to the destructor exactly once, in
    order, and leaves no node behind. *)
Theorem C13_destroy : forall (os : list (lop (D:=D))) s rs,
  run_valid list_create os -> lrun list_create os = Ok (s, rs) ->
  exists h, list_destroy s = Ok (h, elems s) /\ forall a, h a = None.
Proof.
  intros os s rs V E. destruct (run_ok os _ _ _ rep_empty V) as (s' & l & E' & R).
  rewrite E in E'. injection E' as <- _. destruct R as (RP & AL & _).
  rewrite (elems_rep _ _ RP). destruct RP as [S T C]. unfold list_destroy. rewrite C, (sh_head _ _ S).
  destruct (destroy_loop_ok l (Datatypes.S (length l)) (l_heap s)) as (h & EH & Z).
  - apply S.
  - apply S.
  - lia.
  - exists h. auto.
Qed.

(** C14: an iterator started on the list delivers every element that is in the list
    from the start to the end of the traversal exactly once and in list order,
    whatever elements are inserted and removed meanwhile, through this iterator,
    through others, or without one. *)
Theorem C14_each_element_once : forall (P : D -> bool) id os1 os2 s0 r0 s1 rs s2,
  run_valid list_create os1 -> lrun list_create os1 = Ok (s0, r0) ->
  ~ In id (map i_id (l_iters s0)) ->
  run_valid (list_iterator_create s0 id) os2 ->
  lrun (list_iterator_create s0 id) os2 = Ok (s1, rs) ->
  Forall2 (undisturbed P id) os2 rs ->
  lstep s1 (ONext id) = Ok (s2, RVal None) ->
  filter P (delivered id os2 rs) = filter P (elems s0).
Proof.
  intros P id os1 os2 s0 r0 s1 rs s2 V1 E1 NI V2 E2 U NX.
  destruct (run_ok os1 _ _ _ rep_empty V1) as (s' & l & E' & R).
  rewrite E1 in E'. injection E' as <- _.
  set (st := fst (arun empty os1)) in *.
  destruct (step_ok _ _ _ (OIter id) R) as (s3 & l3 & E3 & R3).
  { cbn [op_valid]. destruct R as (_ & _ & IT). rewrite <- (its_ids _ _ _ IT). exact NI. }
  cbn [lstep astep fst snd] in E3, R3. injection E3 as <-.
  set (st3 := mkA (a_list st) ((id, mkCur 0 false) :: a_its st)) in *.
  assert (LF : left P id st3 = Some (filter P (a_list st))).
  { unfold left, st3. cbn. rewrite Nat.eqb_refl. reflexivity. }
  destruct (run_ok os2 _ _ _ R3 V2) as (s'' & l'' & E'' & R'').
  rewrite E2 in E''. injection E'' as -> ->.
  destruct (left_run P id os2 _ _ _ _ R3 V2 LF U) as (s4 & l4 & r4 & R4 & LF4 & Q).
  set (st4 := fst (arun st3 os2)) in *.
  assert (IN : In id (map fst (a_its st4))).
  { unfold left in LF4. destruct (a_find id (a_its st4)) as [c|] eqn:F; [|discriminate]. clear - F.
    induction (a_its st4) as [|[j e] t IH]; cbn in F; [discriminate|]. cbn.
    destruct (Nat.eqb_spec j id); auto. }
  destruct (step_ok _ _ _ (ONext id) R'') as (s5 & l5 & E5 & R5); [exact IN|].
  rewrite NX in E5. injection E5 as _ E5.
  destruct (left_step P id _ _ _ (ONext id) _ R4 LF4) as (r5 & _ & _ & Z); [exact I|].
  rewrite (Z eq_refl (eq_sym E5)), app_nil_r in Q. rewrite <- Q.
  destruct R as (RP & AL & _). rewrite (elems_rep _ _ RP), AL. reflexivity.
Qed.

(** C14: removing through an iterator removes exactly the element it delivered last,
    and the traversal goes on with that element's successor. *)
Theorem C14_remove_current_partial : forall os s r id s1 d,
  run_valid (D:=D) list_create os -> lrun list_create os = Ok (s, r) -> In id (map i_id (l_iters s)) ->
  lstep s (ONext id) = Ok (s1, RVal (Some d)) ->
  exists j s2, nth_error (elems s) j = Some d /\
    lstep s1 (ORemove id) = Ok (s2, RVal (Some d)) /\
    elems s2 = firstn j (elems s) ++ skipn (S j) (elems s) /\
    exists s3, lstep s2 (ONext id) = Ok (s3, RVal (nth_error (elems s) (S j))).
Proof.
  intros os s r id s1 d V E IN NX.
  destruct (run_ok os _ _ _ rep_empty V) as (s' & l & E' & R).
  rewrite E in E'. injection E' as <- _. set (st := fst (arun empty os)) in *.
  pose proof R as (RP & AL & IT). rewrite (its_ids _ _ _ IT) in IN.
  assert (exists c, a_find id (a_its st) = Some c) as [c F].
  { clear - IN. induction (a_its st) as [|[j e] t IH]; cbn in *; [contradiction|].
    destruct (Nat.eqb_spec j id); [eauto|]. destruct IN; [congruence|auto]. }
  destruct (step_ok _ _ _ (ONext id) R IN) as (s'' & l1 & E1 & R1).
  rewrite NX in E1. cbn [astep] in E1, R1. unfold with_iter in E1, R1. rewrite F in E1, R1.
  unfold advance in E1, R1. rewrite skipn_nth_hd in E1, R1.
  destruct (nth_error (a_list st) (c_pos c)) as [d'|] eqn:Q; cbn [fst snd] in E1, R1; [|discriminate].
  injection E1 as <- <-.
  set (st1 := a_put id (mkCur (Datatypes.S (c_pos c)) true) st) in *.
  assert (F1 : a_find id (a_its st1) = Some (mkCur (Datatypes.S (c_pos c)) true)).
  { unfold st1, a_put. cbn [a_its]. rewrite a_find_put, Nat.eqb_refl, F. reflexivity. }
  assert (IDS : forall f (x : alist (D:=D)), map fst (its_map f (a_its x)) = map fst (a_its x)).
  { intros f x. unfold its_map. rewrite map_map. reflexivity. }
  assert (IN1 : In id (map fst (a_its st1))).
  { unfold st1, a_put. cbn [a_its]. rewrite map_map. erewrite map_ext; [exact IN|].
    intros [j e]. cbn. destruct (Nat.eqb_spec j id); cbn; congruence. }
  destruct (step_ok _ _ _ (ORemove id) R1 IN1) as (s2 & l2 & E2 & R2).
  cbn [astep] in E2, R2. unfold with_iter in E2, R2. rewrite F1 in E2, R2. cbn [c_cur c_pos fst snd] in E2, R2.
  replace (Datatypes.S (c_pos c) - 1) with (c_pos c) in * by lia.
  change (a_list st1) with (a_list st) in *. rewrite Q in E2.
  assert (IN2 : In id (map fst (a_its (a_remove (c_pos c) st1)))) by (cbn [a_remove a_its]; rewrite IDS; exact IN1).
  destruct (step_ok _ _ _ (ONext id) R2 IN2) as (s3 & l3 & E3 & R3).
  cbn [astep] in E3. unfold with_iter in E3. cbn [a_remove a_its a_list] in E3. rewrite a_find_map, F1 in E3.
  cbn [option_map] in E3. unfold cur_remove in E3. cbn [c_pos c_cur] in E3. rewrite Nat.eqb_refl in E3.
  unfold advance in E3. cbn [c_pos] in E3.
  change (a_list st1) with (a_list st) in E3.
  rewrite skipn_remove in E3; [|lia|apply nth_error_Some; congruence]. rewrite skipn_nth_hd in E3.
  rewrite (elems_rep _ _ RP), AL. exists (c_pos c), s2. split; [exact Q|]. split; [exact E2|]. split.
  - destruct R2 as (RP2 & AL2 & _). rewrite (elems_rep _ _ RP2), AL2. reflexivity.
  - exists s3. rewrite E3. destruct (nth_error (a_list st) (Datatypes.S (c_pos c))); reflexivity.
Qed.

(** C15: for every comparison, even an inconsistent one, sorting ends, loses and
    invents nothing, and for a preorder the result is sorted and stable. *)
Theorem C15_sort : forall os s r (cmp : D -> D -> Z),
  run_valid list_create os -> lrun list_create os = Ok (s, r) ->
  exists s', lstep s (OSort cmp) = Ok (s', RNone) /\
    Permutation (elems s) (elems s') /\
    (preorder cmp -> StronglySorted (in_order cmp) (elems s') /\
       forall k, filter (same_as cmp k) (elems s') = filter (same_as cmp k) (elems s)).
Proof.
  intros os s r cmp V E.
  destruct (run_ok os _ _ _ rep_empty V) as (s' & l & E' & R).
  rewrite E in E'. injection E' as <- _. set (st := fst (arun empty os)) in *.
  destruct (step_ok _ _ _ (OSort cmp) R I) as (s1 & l1 & E1 & R1).
  exists s1. split; [exact E1|].
  destruct R as (RP & AL & _), R1 as (RP1 & AL1 & _).
  rewrite (elems_rep _ _ RP), (elems_rep _ _ RP1), AL, AL1. cbn [astep fst].
  destruct (Nat.ltb_spec 1 (length (a_list st))) as [GT|LE]; cbn [a_list].
  - split; [apply (isort_perm cmp (a_list st) [])|]. intros PO.
    destruct (isort_ok cmp (a_list st) PO []) as [A B]; [constructor|]. auto.
  - split; [reflexivity|]. intros PO. split; [|reflexivity].
    destruct (a_list st) as [|x [|y t]]; [constructor|repeat constructor|cbn in LE; lia].
Qed.
End Props.

(** C13: the shared node allocator never hands out a node that is in use, and fails
    only when malloc does: what [run_valid] asks of the calls is what it provides. *)
Theorem C13_allocator : forall os, al_run (mkAl [] 0) [] os.
Proof. intros os. apply al_ok. split; cbn; [constructor|tauto|tauto]. Qed.

(** C14 at fault: when the element after the current one is removed by someone else,
    the iterator forgets its current element, and removing through it does nothing. *)
Theorem C14_current_forgotten_refuted : exists (os : list (lop (D:=nat))) s,
  run_valid list_create os /\
  os = [OAppend 1 (Some 0); OAppend 2 (Some 1); OIter 7; ONext 7; ODeleteAll (fun x => x =? 2); ORemove 7] /\
  lrun list_create os = Ok (s, [RVal (Some 1); RVal (Some 2); RNone; RVal (Some 1); RList [2]; RVal None]) /\
  elems s = [1].
Proof.
  eexists _, _. split; [|split; [reflexivity|split; [vm_compute; reflexivity|vm_compute; reflexivity]]].
  vm_compute. repeat split; intuition congruence.
Qed.

(** Witnesses. *)
Definition ex_ops : list (lop (D:=nat)) :=
  [OAppend 5 (Some 0); OAppend 3 (Some 1); OPrepend 9 (Some 2); OIter 1; ONext 1;
   OInsert 1 4 (Some 3); ONext 1; ORemove 1; OAppend 8 None; OAppend 7 (Some 0);
   OFind 1 (fun x => 4 <? x); OSort (fun a b => Z.of_nat a - Z.of_nat b)%Z; ONext 1; OPop; OCount].
Example C13_example : run_valid list_create ex_ops /\
  exists s rs, lrun list_create ex_ops = Ok (s, rs) /\ elems s = [4; 7; 9] /\
  rs = [RVal (Some 5); RVal (Some 3); RVal (Some 9); RNone; RVal (Some 9); RVal (Some 4); RVal (Some 5);
        RVal (Some 5); RVal None; RVal (Some 7); RVal (Some 7); RNone; RVal (Some 3); RVal (Some 3); RNum 3].
Proof.
  split.
  - vm_compute. repeat split; intuition congruence.
  - eexists _, _. split; [vm_compute; reflexivity|]. split; vm_compute; reflexivity.
Qed.

Example C14_example :
  let os1 := [OAppend 5 (Some 0); OAppend 3 (Some 1); OAppend 9 (Some 2); OAppend 4 (Some 3)] in
  let os2 := [ONext 1; ORemove 1; ONext 1; OInsert 1 77 (Some 5); ODeleteAll (fun x => x =? 9); ONext 1] in
  exists s0 r0 s1 rs s2, run_valid (D:=nat) list_create os1 /\ lrun list_create os1 = Ok (s0, r0) /\
    ~ In 1 (map i_id (l_iters s0)) /\ run_valid (list_iterator_create s0 1) os2 /\
    lrun (list_iterator_create s0 1) os2 = Ok (s1, rs) /\
    Forall2 (undisturbed (fun x => (x =? 3) || (x =? 4)) 1) os2 rs /\
    lstep s1 (ONext 1) = Ok (s2, RVal None) /\ delivered 1 os2 rs = [5; 3; 4].
Proof.
  eexists _, _, _, _, _. split; [vm_compute; repeat split; intuition congruence|].
  split; [vm_compute; reflexivity|]. split; [cbn; tauto|].
  split; [vm_compute; repeat split; intuition congruence|].
  split; [vm_compute; reflexivity|]. split; [|split; [vm_compute; reflexivity|vm_compute; reflexivity]].
  repeat (apply Forall2_cons; [cbn; try tauto; try reflexivity|]); [| |apply Forall2_nil].
  - intros d H. injection H as <-. reflexivity.
  - intros ds H. injection H as <-. constructor; [reflexivity|constructor].
Qed.

Example C15_example : preorder (fun a b : nat => (Z.of_nat (a / 10) - Z.of_nat (b / 10))%Z) /\
  isort (fun a b : nat => (Z.of_nat (a / 10) - Z.of_nat (b / 10))%Z) [] [31; 12; 35; 10; 20] = [12; 10; 20; 31; 35].
Proof. split; [split; intros; lia|vm_compute; reflexivity]. Qed.

Print Assumptions C13_behaves_as_sequence.
Print Assumptions C13_destroy.
Print Assumptions C13_allocator.
Print Assumptions C14_each_element_once.
Print Assumptions C14_remove_current_partial.
Print Assumptions C14_current_forgotten_refuted.
Print Assumptions C15_sort.
