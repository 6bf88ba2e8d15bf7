(** C119: many lists, one memory. *)
From Verif Require Import Base BaseProof ListModel ListSpec ListProof PoolModel PoolSpec PoolProof.

Section Props.
Context {D : Type}.

(** For every sequence of calls on any number of lists, and whichever of the calls of malloc()
    fail: no call touches memory it must not touch, each returns what it returns on a plain
    sequence of its own, the shared memory holds exactly these sequences, and an insertion
    fails only when there is no free node and malloc() fails. *)
Theorem C119_separate : forall cs : list (call (D:=D)), calls_ok nothing cs ->
  exists s, prun start cs = Ok (s, snd (mrun nothing cs)) /\
    forall k, contents s k = match m_lists (fst (mrun nothing cs)) k with Some a => Some (a_list a) | None => None end.
Proof.
  intros cs V. destruct (prun_ok cs _ _ _ _ inv_start V) as (s & LS & fl & E & I). exists s. split; [exact E|]. intros k. eapply contents_ok; eauto.
Qed.

(** What is done to other lists makes no difference: the calls on one list return the same, and
    leave the same in it, as if they were the only ones. *)
Theorem C119_undisturbed : forall (cs : list (call (D:=D))) k s rs, calls_ok nothing cs -> Forall memory cs -> prun start cs = Ok (s, rs) ->
  exists s1, prun start (filter (on k) cs) = Ok (s1, about k cs rs) /\ contents s1 k = contents s k.
Proof.
  intros cs k s rs V M E. destruct (prun_ok cs _ _ _ _ inv_start V) as (s' & LS & fl & E' & I). rewrite E in E'. injection E' as <- ->.
  destruct (mrun_local k cs nothing nothing M eq_refl V) as (V1 & R & L).
  destruct (prun_ok _ _ _ _ _ inv_start V1) as (s1 & LS1 & fl1 & E1 & I1). exists s1. rewrite E1, R. split; [reflexivity|].
  rewrite (contents_ok _ _ _ _ k I1), (contents_ok _ _ _ _ k I), L. reflexivity.
Qed.

(** No node is lost: each is in a list or linked among the free ones, once; and there are never
    ten nodes more than the lists have had elements at one time. *)
Theorem C119_memory : forall (cs : list (call (D:=D))) s rs ks, calls_ok nothing cs -> prun start cs = Ok (s, rs) ->
  NoDup ks -> (forall k, contents s k <> None -> In k ks) ->
  (exists n, NoDup (nodes_from n (p_mem s) (p_free s)) /\ length (nodes_from n (p_mem s) (p_free s)) = n /\ p_brk s = n + sizes s ks) /\
  sizes s ks = m_used (fst (mrun nothing cs)) /\ p_brk s <= m_peak (fst (mrun nothing cs)) + 9.
Proof.
  intros cs s rs ks V E N K. destruct (prun_ok cs _ _ _ _ inv_start V) as (s' & LS & fl & E' & I). rewrite E in E'. injection E' as <- _.
  pose proof (counts_run cs nothing counts_start V) as C.
  assert (SU : sizes s ks = m_used (fst (mrun nothing cs))).
  { rewrite (C ks).
    - unfold sizes, total. f_equal. apply map_ext. intros k. unfold size, len_at. rewrite (contents_ok _ _ _ _ k I). destruct (m_lists _ k); reflexivity.
    - split; [exact N|]. intros k H. apply K. rewrite (contents_ok _ _ _ _ k I). destruct (m_lists _ k); [discriminate|congruence]. }
  split; [|split; [exact SU|apply (in_most _ _ _ _ I)]]. exists (length fl). pose proof (mi_chain _ _ _ _ _ (in_mi _ _ _ _ I)) as CH.
  rewrite (chain_len _ _ _ CH). split; [apply (in_mi _ _ _ _ I)|]. split; [reflexivity|].
  rewrite (in_total _ _ _ _ I), (in_spare _ _ _ _ I), SU. reflexivity.
Qed.
End Props.

(** Two lists that take turns: nodes of one end up in the other. *)
Definition turns : list (call (D:=nat)) :=
  [PNew 1; PNew 2; PDo 1 (OAppend 11 None) (Some 0); PDo 2 (OAppend 21 None) (Some 0); PDo 1 (OPrepend 12 None) (Some 0); PDo 1 (OIter 5) (Some 0);
   PDo 1 (ONext 5) (Some 0); PDo 1 (ORemove 5) (Some 0); PDo 2 (OPrepend 22 None) (Some 0); PDo 1 OPop (Some 0);
   PDo 2 (OSort (fun a b => Z.of_nat a - Z.of_nat b)%Z) (Some 0); PDo 1 (OAppend 13 None) (Some 0); PDestroy 2; PDo 1 (ODeleteAll (fun _ => true)) (Some 0)].
Example C119_example : calls_ok nothing turns /\ Forall memory turns /\
  (exists s rs, prun start turns = Ok (s, rs) /\ contents s 1 = Some [] /\ contents s 2 = None /\ p_brk s = 10 /\
    about 1 turns rs = [RNone; RVal (Some 11); RVal (Some 12); RNone; RVal (Some 12); RVal (Some 12); RVal (Some 11); RVal (Some 13); RList [13]] /\
    about 2 turns rs = [RNone; RVal (Some 21); RVal (Some 22); RNone; RList [21; 22]]) /\
  (exists s rs, prun start [PNew 1; PDo 1 (OAppend 4 None) (Some 0); PDo 1 (OAppend 5 None) None] = Ok (s, rs) /\
    rs = [RNone; RVal (Some 4); RVal (Some 5)] /\ contents s 1 = Some [4; 5]) /\
  (exists s rs, prun (D:=nat) start [PNew 1; PDo 1 (OAppend 5 None) None] = Ok (s, rs) /\ rs = [RNone; RVal None] /\ contents s 1 = Some []).
Proof.
  split.
  { unfold turns. cbn [calls_ok]. repeat apply conj; try exact I; cbn [call_ok]; try (vm_compute; discriminate); try (vm_compute; reflexivity);
      (eexists; split; [vm_compute; reflexivity|]); vm_compute; auto. }
  split; [repeat constructor|]. split; [|split].
  - eexists _, _. split; [vm_compute; reflexivity|]. vm_compute. auto 10.
  - eexists _, _. split; [vm_compute; reflexivity|]. vm_compute. auto.
  - eexists _, _. split; [vm_compute; reflexivity|]. vm_compute. auto.
Qed.

Print Assumptions C119_separate.
Print Assumptions C119_undisturbed.
Print Assumptions C119_memory.
