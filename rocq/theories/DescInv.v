(** Proofs about descriptors: the invariant. *)
From Verif Require Import Base BaseProof DescModel DescSpec DescProof.
Local Open Scope Z_scope.

Definition sees (p : proc) (fd : Z) (v : vd) : Prop :=
  exists d, find fd (p_tab p) = Some d /\ d_what d = v_what v /\ d_nb d = v_nb v /\ d_ce d = v_ce v /\
    (In fd (p_watched p) <-> v_w v = true) /\ (v_w v = true -> v_nb v = true).
Definition prov (past : list (nat * call * answer)) (i : nat) (fd : Z) (v : vd) : Prop :=
  v_ce v = false -> exists j c, unmarked past fd j c /\ (if what_dec (v_what v) Client then exists nb, c = Open Client nb else j = i).
Definition std_ok (b : birth) : Prop :=
  (exists id, forall fd, standard fd -> find fd (b_tab b) = Some (mkDsc ProgramEnd id true false)) \/
  (exists id, forall fd, standard fd -> find fd (b_tab b) = Some (mkDsc Null id false false)) \/
  (forall fd, standard fd -> find fd (b_tab b) = None).
Definition born_ok (t : tab) (b : birth) : Prop :=
  (forall fd d, In (fd, d) (b_tab b) -> standard fd \/ In (fd, d) t \/
     exists j c, unmarked (b_past b) fd j c /\ (j <> b_by b \/ exists nb, c = Open Client nb)) /\ std_ok b.
Definition apart (p : proc) (H : nat -> held) (fd : Z) : Prop :=
  ~ In fd (map fst (p_objs p)) /\ ~ In fd (map fst (p_files p)) /\ forall i, ~ In fd (fds (H i)).

Record Core (t : tab) (p : proc) (H : nat -> held) : Prop := {
  c_tab : NoDup (map fst (p_tab p));
  c_nd : forall i, NoDup (fds (H i));
  c_view : forall i fd v, In (fd, v) (H i) -> sees p fd v /\ prov (p_past p) i fd v /\ 2 < fd;
  c_disj : forall i j fd, In fd (fds (H i)) -> In fd (fds (H j)) -> i = j;
  c_std : forall fd, standard fd -> In fd (map fst (p_tab p)) /\ ~ In fd (p_watched p) /\ apart p H fd;
  c_ext : forall fd d, In (fd, d) t -> ~ standard fd -> find fd (p_tab p) = Some d /\ ~ In fd (p_watched p) /\ apart p H fd;
  c_obj : forall fd id, In (fd, id) (p_objs p) -> (exists d, find fd (p_tab p) = Some d /\ d_id d = id /\ d_nb d = true /\ d_ce d = true) /\
            2 < fd /\ ~ In fd (map fst (p_files p)) /\ forall i, ~ In fd (fds (H i));
  c_file : forall fd id, In (fd, id) (p_files p) -> (exists d, find fd (p_tab p) = Some d /\ d_id d = id /\ d_ce d = true) /\
            2 < fd /\ ~ In fd (p_watched p) /\ forall i, ~ In fd (fds (H i));
  c_ondup : NoDup (map fst (p_objs p));
  c_fndup : NoDup (map fst (p_files p));
  c_all : forall fd d, find fd (p_tab p) = Some d -> standard fd \/ In (fd, d) t \/ In fd (map fst (p_objs p)) \/ In fd (map fst (p_files p)) \/ exists i, In fd (fds (H i));
  c_watch : forall fd, In fd (p_watched p) -> In fd (map fst (p_objs p)) \/ exists i, In fd (fds (H i));
  c_born : forall b, In b (p_born p) -> born_ok t b }.

Definition upd (H : nat -> held) (i : nat) (h : held) : nat -> held := fun j => if Nat.eqb j i then h else H j.
Lemma upd_same H i h : upd H i h i = h.
Proof. unfold upd. rewrite Nat.eqb_refl. reflexivity. Qed.
Lemma upd_other H i h j : j <> i -> upd H i h j = H j.
Proof. intros N. unfold upd. apply Nat.eqb_neq in N. rewrite N. reflexivity. Qed.
Ltac upd_case j i := destruct (Nat.eq_dec j i) as [->|?N]; [rewrite ?upd_same in *|rewrite ?upd_other in * by assumption].

Definition quiet (c : call) (a : answer) (x : Z) : Prop := c <> Close x /\ ~ (c = Cloexec x /\ ok a = true).
Lemma prov_keep past i fd v k c a : prov past i fd v -> quiet c a fd -> prov ((k, c, a) :: past) i fd v.
Proof.
  intros P Q CE. destruct (P CE) as (j & c0 & (s & a0 & b & E & M & F) & X). exists j, c0. split; [|exact X].
  exists ((k, c, a) :: s), a0, b. split; [rewrite E; reflexivity|]. split; [exact M|].
  intros k' c' a' [I|I]; [injection I as -> -> ->; exact Q|eauto].
Qed.
Lemma in_fds fd v (H : held) : In (fd, v) H -> In fd (fds H).
Proof. intros I. apply in_map_iff. exists (fd, v). auto. Qed.
Lemma fds_in fd (H : held) : In fd (fds H) -> exists v, In (fd, v) H.
Proof. intros I. apply in_map_iff in I. destruct I as ([n v] & <- & I). eauto. Qed.

(** The process with other threads, with the call added to the past. *)
Definition told (p : proc) (x : nat * call * answer) : proc := with_threads p (p_threads p) (x :: p_past p) (p_alive p).
Lemma core_threads t p H l al : Core t p H -> Core t (with_threads p l (p_past p) al) H.
Proof. intros C. destruct C. constructor; auto. Qed.
Lemma core_told t p H x : Core t p H -> (forall i fd v, In (fd, v) (H i) -> quiet (snd (fst x)) (snd x) fd) -> Core t (told p x) H.
Proof.
  intros C Q. destruct x as [[k c] a]. destruct C as [A1 A2 A3 A4 A5 A6 A7 A8 A9 A10 A11 A12 A13]. constructor; auto.
  intros i fd v I. destruct (A3 i fd v I) as (S & P & G). split; [exact S|]. split; [|exact G]. apply prov_keep; auto. apply (Q i fd v I).
Qed.

Lemma core_touch t p H i fd v v' tab' w' k c a :
  Core t p H -> In (fd, v) (H i) ->
  map fst tab' = map fst (p_tab p) -> (forall x, x <> fd -> find x tab' = find x (p_tab p)) ->
  (forall x, x <> fd -> (In x w' <-> In x (p_watched p))) ->
  (forall d, find fd (p_tab p) = Some d -> exists d', find fd tab' = Some d' /\ d_what d' = v_what v' /\ d_nb d' = v_nb v' /\ d_ce d' = v_ce v') ->
  (In fd w' <-> v_w v' = true) -> (v_w v' = true -> v_nb v' = true) -> v_what v' = v_what v -> (v_ce v' = false -> v_ce v = false) ->
  (v_ce v' = false -> quiet c a fd) -> (forall x, x <> fd -> quiet c a x) ->
  Core t (mkProc tab' (p_objs p) (p_files p) w' (p_threads p) (p_next p) ((k, c, a) :: p_past p) (p_born p) (p_alive p)) (upd H i (setv fd v' (H i))).
Proof.
  intros C I TF TO WO TN WN WB WH CE QF QO. pose proof C as C0. destruct C as [A1 A2 A3 A4 A5 A6 A7 A8 A9 A10 A11 A12 A13].
  assert (FU : forall j, fds (upd H i (setv fd v' (H i)) j) = fds (H j)).
  { intros j. upd_case j i; [apply setv_fds|reflexivity]. }
  assert (OT : forall x j u, In (x, u) (H j) -> j <> i -> x <> fd).
  { intros x j u J N ->. apply N. eapply A4; eapply in_fds; eauto. }
  destruct (A3 i fd v I) as (S & P & G). destruct S as (d & FD & D1 & D2 & D3 & D4 & D5).
  constructor; cbn [p_tab p_objs p_files p_watched p_past p_born].
  - rewrite TF. exact A1.
  - intros j. rewrite FU. apply A2.
  - intros j x u J. assert (X : x = fd /\ u = v' /\ j = i \/ x <> fd /\ In (x, u) (H j)).
    { upd_case j i; [|right; split; [eapply OT; eauto|exact J]]. apply in_setv in J. destruct J as [(-> & -> & _)|(N & J)]; auto. }
    destruct X as [(-> & -> & ->)|(N & J')].
    + split; [|split; [|exact G]].
      * destruct (TN d FD) as (d' & E' & X1 & X2 & X3). exists d'. cbn [p_tab p_watched]. auto 10.
      * intros X. apply prov_keep; [|auto|exact X]. intros Y. destruct (P (CE X)) as (j0 & c0 & U & W). exists j0, c0. split; [exact U|]. rewrite WH. exact W.
    + destruct (A3 j x u J') as (S' & P' & G'). split; [|split; [|exact G']].
      * destruct S' as (e & FE & E1 & E2 & E3 & E4 & E5). exists e. cbn [p_tab p_watched]. rewrite TO by exact N. rewrite (WO x N). auto 10.
      * apply prov_keep; auto.
  - intros j k' x. rewrite !FU. apply A4.
  - intros x X. destruct (A5 x X) as (B1 & B2 & B3 & B4 & B5). rewrite TF. split; [exact B1|].
    assert (x <> fd) by (unfold standard in X; lia). split; [rewrite WO by assumption; exact B2|]. split; [exact B3|]. split; [exact B4|]. intros j. rewrite FU. apply B5.
  - intros x e X NS. destruct (A6 x e X NS) as (B1 & B2 & B3 & B4 & B5).
    assert (x <> fd) by (intros ->; apply (B5 i); eapply in_fds; eauto). rewrite TO, WO by assumption. split; [exact B1|]. split; [exact B2|]. split; [exact B3|]. split; [exact B4|]. intros j. rewrite FU. apply B5.
  - intros x id X. destruct (A7 x id X) as (B1 & B2 & B3 & B4).
    assert (x <> fd) by (intros ->; apply (B4 i); eapply in_fds; eauto). rewrite TO by assumption. split; [exact B1|]. split; [exact B2|]. split; [exact B3|]. intros j. rewrite FU. apply B4.
  - intros x id X. destruct (A8 x id X) as (B1 & B2 & B3 & B4).
    assert (x <> fd) by (intros ->; apply (B4 i); eapply in_fds; eauto). rewrite TO, WO by assumption. split; [exact B1|]. split; [exact B2|]. split; [exact B3|]. intros j. rewrite FU. apply B4.
  - exact A9.
  - exact A10.
  - intros x e X. destruct (Z.eq_dec x fd) as [->|N].
    + do 4 right. exists i. rewrite FU. eapply in_fds; eauto.
    + rewrite TO in X by exact N. destruct (A11 x e X) as [Y|[Y|[Y|[Y|[j Y]]]]]; auto. do 4 right. exists j. rewrite FU. exact Y.
  - intros x X. destruct (Z.eq_dec x fd) as [->|N]; [right; exists i; rewrite FU; eapply in_fds; eauto|].
    rewrite WO in X by exact N. destruct (A12 x X) as [Y|[j Y]]; auto. right. exists j. rewrite FU. exact Y.
  - exact A13.
Qed.

Lemma core_fresh t p H i fd w nb past n :
  Core t p H -> fd = fresh (p_tab p) ->
  (forall j x v, prov (p_past p) j x v -> prov past j x v) -> prov past i fd (mkV w nb false false) ->
  Core t (mkProc ((fd, mkDsc w n nb false) :: p_tab p) (p_objs p) (p_files p) (p_watched p) (p_threads p) (S n) past (p_born p) (p_alive p))
    (upd H i ((fd, mkV w nb false false) :: H i)) /\ 2 < fd /\ ~ In fd (fds (H i)).
Proof.
  intros C -> PK PN. pose proof C as C0. destruct C as [A1 A2 A3 A4 A5 A6 A7 A8 A9 A10 A11 A12 A13].
  pose proof (fresh_free (p_tab p) A1) as FF. pose proof (fresh_ge (p_tab p)) as FG. set (fd := fresh (p_tab p)) in *. clearbody fd.
  assert (F2 : 2 < fd).
  { assert (~ standard fd) as NS by (intros S; apply FF; apply (A5 fd S)). unfold standard in NS. lia. }
  assert (FH : forall j, ~ In fd (fds (H j))).
  { intros j I. apply fds_in in I. destruct I as (v & I). destruct (A3 j fd v I) as ((d & FD & _) & _). apply FF. apply find_fst. congruence. }
  assert (FO : ~ In fd (map fst (p_objs p))).
  { intros I. apply in_map_iff in I. destruct I as ([x id] & E & I). cbn in E. subst x. destruct (A7 _ _ I) as ((d & FD & _) & _). apply FF. apply find_fst. congruence. }
  assert (FI : ~ In fd (map fst (p_files p))).
  { intros I. apply in_map_iff in I. destruct I as ([x id] & E & I). cbn in E. subst x. destruct (A8 _ _ I) as ((d & FD & _) & _). apply FF. apply find_fst. congruence. }
  assert (FW : ~ In fd (p_watched p)).
  { intros I. destruct (A12 _ I) as [Y|[j Y]]; [auto|eapply FH; eauto]. }
  assert (TO : forall x, x <> fd -> find x ((fd, mkDsc w n nb false) :: p_tab p) = find x (p_tab p)).
  { intros x N. cbn [find]. apply Z.eqb_neq in N. rewrite N. reflexivity. }
  assert (NE : forall x, In x (map fst (p_tab p)) -> x <> fd) by (intros x I ->; auto).
  assert (NF : forall x d, find x (p_tab p) = Some d -> x <> fd) by (intros x d I; apply NE, find_fst; congruence).
  assert (FU : forall j x, In x (fds (upd H i ((fd, mkV w nb false false) :: H i) j)) <-> In x (fds (H j)) \/ j = i /\ x = fd).
  { intros j x. upd_case j i; cbn [fds map fst In]; [|tauto]. split; [intros [<-|]; auto|intros [|[_ ->]]; auto]. }
  split; [|split; [exact F2|apply FH]].
  constructor; cbn [p_tab p_objs p_files p_watched p_past p_born].
  - cbn [map fst]. constructor; auto.
  - intros j. upd_case j i; [cbn [fds map fst]; constructor; [apply FH|apply A2]|apply A2].
  - intros j x u J. assert (X : x = fd /\ u = mkV w nb false false /\ j = i \/ In (x, u) (H j)).
    { upd_case j i; [|auto]. destruct J as [E|J]; [injection E as <- <-; auto|auto]. }
    destruct X as [(-> & -> & ->)|J'].
    + split; [|split; [|exact F2]].
      * exists (mkDsc w n nb false). cbn [p_tab p_watched find]. rewrite Z.eqb_refl. repeat split; auto; cbn; try congruence.
      * exact PN.
    + destruct (A3 j x u J') as (S' & P' & G'). split; [|split; [apply PK; auto|exact G']].
      destruct S' as (e & FE & S'). exists e. cbn [p_tab p_watched]. rewrite TO by (eapply NF; eauto). auto.
  - intros j j' x. rewrite !FU. intros [X|[-> ->]] [Y|[-> Y]]; eauto; subst; exfalso; eapply FH; eauto.
  - intros x X. destruct (A5 x X) as (B1 & B2 & B3 & B4 & B5). split; [right; exact B1|]. split; [exact B2|]. split; [exact B3|]. split; [exact B4|].
    intros j. rewrite FU. intros [Y|[_ ->]]; [apply (B5 j Y)|auto].
  - intros x e X NS. destruct (A6 x e X NS) as (B1 & B2 & B3 & B4 & B5). rewrite TO by (eapply NF; eauto). split; [exact B1|]. split; [exact B2|]. split; [exact B3|]. split; [exact B4|].
    intros j. rewrite FU. intros [Y|[_ ->]]; [apply (B5 j Y)|]. apply NF in B1. auto.
  - intros x id X. destruct (A7 x id X) as ((d & B1 & B1') & B2 & B3 & B4). split; [exists d; rewrite TO by (eapply NF; eauto); auto|]. split; [exact B2|]. split; [exact B3|].
    intros j. rewrite FU. intros [Y|[_ ->]]; [apply (B4 j Y)|]. apply NF in B1. auto.
  - intros x id X. destruct (A8 x id X) as ((d & B1 & B1') & B2 & B3 & B4). split; [exists d; rewrite TO by (eapply NF; eauto); auto|]. split; [exact B2|]. split; [exact B3|].
    intros j. rewrite FU. intros [Y|[_ ->]]; [apply (B4 j Y)|]. apply NF in B1. auto.
  - exact A9.
  - exact A10.
  - intros x e X. destruct (Z.eq_dec x fd) as [->|N]; [do 4 right; exists i; apply FU; auto|].
    rewrite TO in X by exact N. destruct (A11 x e X) as [Y|[Y|[Y|[Y|[j Y]]]]]; auto. do 4 right. exists j. apply FU. auto.
  - intros x X. destruct (A12 x X) as [Y|[j Y]]; auto. right. exists j. apply FU. auto.
  - exact A13.
Qed.

Lemma core_close t p H i fd v k c a :
  Core t p H -> In (fd, v) (H i) -> v_w v = false -> (forall x, x <> fd -> quiet c a x) ->
  Core t (mkProc (drop fd (p_tab p)) (p_objs p) (p_files p) (p_watched p) (p_threads p) (p_next p) ((k, c, a) :: p_past p) (p_born p) (p_alive p))
    (upd H i (delv fd (H i))).
Proof.
  intros C I WV Q. pose proof C as C0. destruct C as [A1 A2 A3 A4 A5 A6 A7 A8 A9 A10 A11 A12 A13].
  assert (TO : forall x, x <> fd -> find x (drop fd (p_tab p)) = find x (p_tab p)).
  { intros x N. rewrite find_drop. apply Z.eqb_neq in N. rewrite N. reflexivity. }
  assert (FU : forall j x, In x (fds (upd H i (delv fd (H i)) j)) <-> In x (fds (H j)) /\ (j = i -> x <> fd)).
  { intros j x. upd_case j i; [rewrite fds_delv; tauto|tauto]. }
  assert (OT : forall x j, In x (fds (H j)) -> j <> i -> x <> fd).
  { intros x j J N ->. apply N. eapply A4; eauto. eapply in_fds; eauto. }
  destruct (A3 i fd v I) as ((d & FD & _ & _ & _ & D4 & _) & P & G).
  assert (NW : ~ In fd (p_watched p)) by (rewrite D4; congruence).
  constructor; cbn [p_tab p_objs p_files p_watched p_past p_born].
  - apply drop_nodup; auto.
  - intros j. upd_case j i; [apply delv_nodup; auto|auto].
  - intros j x u J. assert (X : x <> fd /\ In (x, u) (H j)).
    { upd_case j i; [apply in_delv in J; exact J|split; [|exact J]]. eapply OT; eauto. eapply in_fds; eauto. }
    destruct X as (N & J'). destruct (A3 j x u J') as ((e & S') & P' & G'). split; [|split; [apply prov_keep; auto|exact G']].
    exists e. cbn [p_tab p_watched]. rewrite TO by exact N. exact S'.
  - intros j j' x. rewrite !FU. intros [X _] [Y _]. eauto.
  - intros x X. destruct (A5 x X) as (B1 & B2 & B3 & B4 & B5). assert (x <> fd) by (unfold standard in X; lia).
    split; [apply find_fst; rewrite TO by assumption; apply find_fst; exact B1|]. split; [exact B2|]. split; [exact B3|]. split; [exact B4|]. intros j. rewrite FU. intros [Y _]. apply (B5 j Y).
  - intros x e X NS. destruct (A6 x e X NS) as (B1 & B2 & B3 & B4 & B5). assert (x <> fd) by (intros ->; apply (B5 i); eapply in_fds; eauto).
    rewrite TO by assumption. split; [exact B1|]. split; [exact B2|]. split; [exact B3|]. split; [exact B4|]. intros j. rewrite FU. intros [Y _]. apply (B5 j Y).
  - intros x id X. destruct (A7 x id X) as (B1 & B2 & B3 & B4). assert (x <> fd) by (intros ->; apply (B4 i); eapply in_fds; eauto).
    rewrite TO by assumption. split; [exact B1|]. split; [exact B2|]. split; [exact B3|]. intros j. rewrite FU. intros [Y _]. apply (B4 j Y).
  - intros x id X. destruct (A8 x id X) as (B1 & B2 & B3 & B4). assert (x <> fd) by (intros ->; apply (B4 i); eapply in_fds; eauto).
    rewrite TO by assumption. split; [exact B1|]. split; [exact B2|]. split; [exact B3|]. intros j. rewrite FU. intros [Y _]. apply (B4 j Y).
  - exact A9.
  - exact A10.
  - intros x e X. rewrite find_drop in X. destruct (Z.eqb_spec x fd) as [|N]; [discriminate|].
    destruct (A11 x e X) as [Y|[Y|[Y|[Y|[j Y]]]]]; auto. do 4 right. exists j. apply FU. auto.
  - intros x X. destruct (A12 x X) as [Y|[j Y]]; auto. right. exists j. apply FU. split; [exact Y|]. intros _ ->. auto.
  - exact A13.
Qed.

Lemma in_pair_fst {A B} (x : A) (y : B) l : In (x, y) l -> In x (map fst l).
Proof. intros I. apply in_map_iff. exists (x, y). auto. Qed.
Lemma fst_in_pair {A B} (x : A) (l : list (A * B)) : In x (map fst l) -> exists y, In (x, y) l.
Proof. intros I. apply in_map_iff in I. destruct I as ([n v] & <- & I). eauto. Qed.

Lemma core_dup t p H i fd v to :
  Core t p H -> In (fd, v) (H i) -> standard to ->
  Core t (mkProc (dup2 fd to (p_tab p)) (p_objs p) (p_files p) (p_watched p) (p_threads p) (p_next p) (p_past p) (p_born p) (p_alive p)) H.
Proof.
  intros C I ST. pose proof C as C0. destruct C as [A1 A2 A3 A4 A5 A6 A7 A8 A9 A10 A11 A12 A13].
  destruct (A3 i fd v I) as ((d & FD & _) & _ & G). unfold dup2.
  assert (N : fd =? to = false) by (apply Z.eqb_neq; unfold standard in ST; lia). rewrite N, FD.
  set (e := mkDsc (d_what d) (d_id d) (d_nb d) false).
  assert (TO : forall x, x <> to -> find x ((to, e) :: drop to (p_tab p)) = find x (p_tab p)).
  { intros x X. cbn [find]. rewrite find_drop. apply Z.eqb_neq in X. rewrite X. reflexivity. }
  assert (GT : forall x, 2 < x -> x <> to) by (unfold standard in ST; intros; lia).
  constructor; cbn [p_tab p_objs p_files p_watched p_past p_born]; auto.
  - cbn [map fst]. constructor; [|apply drop_nodup; auto]. intros X. apply find_fst in X. rewrite find_drop, Z.eqb_refl in X. auto.
  - intros j x u J. destruct (A3 j x u J) as ((d' & S') & P & G'). split; [|auto]. exists d'. cbn [p_tab p_watched]. rewrite TO by auto. exact S'.
  - intros x X. destruct (A5 x X) as (B1 & B). split; [|exact B]. apply find_fst. destruct (Z.eq_dec x to) as [->|N']; [cbn [find]; rewrite Z.eqb_refl; discriminate|].
    rewrite TO by exact N'. apply find_fst, B1.
  - intros x u X NS. destruct (A6 x u X NS) as (B1 & B). split; [|exact B]. rewrite TO; [exact B1|]. intros ->. auto.
  - intros x id X. destruct (A7 x id X) as (B1 & B2 & B). rewrite TO by auto. auto.
  - intros x id X. destruct (A8 x id X) as (B1 & B2 & B). rewrite TO by auto. auto.
  - intros x u X. destruct (Z.eq_dec x to) as [->|N']; [auto|]. rewrite TO in X by exact N'. eauto.
Qed.

(** ** The programs *)
Lemma in_drop fd t x d : In (x, d) (drop fd t) <-> x <> fd /\ In (x, d) t.
Proof. unfold drop. rewrite filter_In. cbn [fst]. rewrite negb_true_iff, Z.eqb_neq. intuition congruence. Qed.
Lemma find_exec t fd d : NoDup (map fst t) -> find fd t = Some d -> find fd (exec t) = if d_ce d then None else Some d.
Proof.
  unfold exec. induction t as [|[n e] t IH]; cbn [find filter snd map fst]; [discriminate|]. intros ND F. inversion ND as [|? ? NI ND']; subst.
  destruct (Z.eqb_spec fd n) as [->|N].
  - injection F as ->. destruct (d_ce d) eqn:CE; cbn [negb]; [|cbn [find]; rewrite Z.eqb_refl; reflexivity].
    apply find_none. intros X. apply in_map_iff in X. destruct X as ([x e] & <- & X). apply filter_In in X. apply NI. cbn [fst]. eapply in_pair_fst. apply X.
  - destruct (negb (d_ce e)); cbn [find]; [|auto]. apply Z.eqb_neq in N. rewrite N. auto.
Qed.
Lemma find_exec_none t fd : find fd t = None -> find fd (exec t) = None.
Proof.
  intros F. apply find_none. intros X. apply fst_in_pair in X. destruct X as (d & X). unfold exec in X. apply filter_In in X.
  destruct X as (X & _). apply in_pair_fst, find_fst in X. auto.
Qed.
Lemma in_exec t fd d : In (fd, d) (exec t) <-> In (fd, d) t /\ d_ce d = false.
Proof. unfold exec. rewrite filter_In. cbn [snd]. rewrite negb_true_iff. tauto. Qed.
Lemma dup2_nodup a b t : NoDup (map fst t) -> NoDup (map fst (dup2 a b t)).
Proof.
  intros ND. unfold dup2. destruct (a =? b); [exact ND|]. destruct (find a t); [|exact ND]. cbn [map fst]. constructor; [|apply drop_nodup; auto].
  intros X. apply find_fst in X. rewrite find_drop, Z.eqb_refl in X. auto.
Qed.
Lemma find_dup2 a b t d x : a <> b -> find a t = Some d ->
  find x (dup2 a b t) = if x =? b then Some (mkDsc (d_what d) (d_id d) (d_nb d) false) else find x t.
Proof.
  intros N F. unfold dup2. apply Z.eqb_neq in N. rewrite N, F. cbn [find]. rewrite find_drop. destruct (x =? b); reflexivity.
Qed.
Lemma in_dup2 a b t x d : In (x, d) (dup2 a b t) -> x = b \/ In (x, d) t.
Proof.
  unfold dup2. destruct (a =? b); [auto|]. destruct (find a t); [|auto]. intros [E|I]; [injection E as <- _; auto|]. apply in_drop in I. tauto.
Qed.
Lemma triple_find t f d : NoDup (map fst t) -> 2 < f -> find f t = Some d ->
  let u := dup2 f 2 (dup2 f 1 (dup2 f 0 t)) in
  NoDup (map fst u) /\ forall x, find x u = if (x =? 2) || (x =? 1) || (x =? 0) then Some (mkDsc (d_what d) (d_id d) (d_nb d) false) else find x t.
Proof.
  intros ND G F u. split; [unfold u; auto using dup2_nodup|]. intros x. unfold u.
  assert (F0 : find f (dup2 f 0 t) = Some d) by (rewrite (@find_dup2 f 0 t d) by (auto; lia); destruct (Z.eqb_spec f 0); [lia|exact F]).
  assert (F1 : find f (dup2 f 1 (dup2 f 0 t)) = Some d) by (rewrite (@find_dup2 f 1 _ d) by (auto; lia); destruct (Z.eqb_spec f 1); [lia|exact F0]).
  rewrite (@find_dup2 f 2 _ d), (@find_dup2 f 1 _ d), (@find_dup2 f 0 _ d) by (auto; lia).
  destruct (x =? 2), (x =? 1), (x =? 0); reflexivity.
Qed.

Lemma process_child_tab t f0 f1 d : NoDup (map fst t) -> f0 <> f1 -> 2 < f0 -> 2 < f1 -> find f1 t = Some d ->
  (forall x, standard x -> find x (child t (process_child f0 f1)) = Some (mkDsc (d_what d) (d_id d) (d_nb d) false)) /\
  (forall x e, In (x, e) (child t (process_child f0 f1)) -> standard x \/ x <> f0 /\ find x t = Some e /\ d_ce e = false).
Proof.
  intros ND N G0 G1 F. unfold child, process_child. cbn [fold_left child_step].
  assert (F' : find f1 (drop f0 t) = Some d) by (rewrite find_drop; destruct (Z.eqb_spec f1 f0); [congruence|exact F]).
  destruct (triple_find _ _ _ (drop_nodup f0 _ ND) G1 F') as (NU & FU).
  set (u := dup2 f1 2 (dup2 f1 1 (dup2 f1 0 (drop f0 t)))) in *. split.
  - intros x X. rewrite (@find_exec u x (mkDsc (d_what d) (d_id d) (d_nb d) false)); [reflexivity|exact NU|]. rewrite FU. destruct X as [->|[->| ->]]; reflexivity.
  - intros x e I. apply in_exec in I. destruct I as (I & CE). pose proof (in_find _ _ _ NU I) as FX. rewrite FU in FX. unfold standard.
    destruct (Z.eqb_spec x 2); [auto|]. destruct (Z.eqb_spec x 1); [auto|]. destruct (Z.eqb_spec x 0); [auto|]. cbn [orb] in FX.
    right. rewrite find_drop in FX. destruct (Z.eqb_spec x f0); [discriminate|]. auto.
Qed.
Lemma reset_child_tab t f d : NoDup (map fst t) -> 2 < f -> find f t = Some d ->
  (forall x, standard x -> find x (child t (reset_child f)) = Some (mkDsc (d_what d) (d_id d) (d_nb d) false)) /\
  (forall x e, In (x, e) (child t (reset_child f)) -> standard x \/ x <> f /\ find x t = Some e /\ d_ce e = false).
Proof.
  intros ND G F. unfold child, reset_child. destruct (Z.ltb_spec f 0); [lia|]. destruct (Z.ltb_spec 2 f); [|lia]. cbn [app fold_left child_step].
  destruct (triple_find _ _ _ ND G F) as (NU & FU).
  set (u := dup2 f 2 (dup2 f 1 (dup2 f 0 t))) in *. split.
  - intros x X. rewrite (@find_exec (drop f u) x (mkDsc (d_what d) (d_id d) (d_nb d) false)); [reflexivity|apply drop_nodup, NU|]. rewrite find_drop.
    destruct (Z.eqb_spec x f); [unfold standard in X; lia|]. rewrite FU. destruct X as [->|[->| ->]]; reflexivity.
  - intros x e I. apply in_exec in I. destruct I as (I & CE). pose proof (in_find _ _ _ (drop_nodup f _ NU) I) as FX. rewrite find_drop in FX.
    destruct (Z.eqb_spec x f); [discriminate|]. rewrite FU in FX. unfold standard.
    destruct (Z.eqb_spec x 2); [auto|]. destruct (Z.eqb_spec x 1); [auto|]. destruct (Z.eqb_spec x 0); [auto|]. cbn [orb] in FX. auto.
Qed.
Lemma closed_child_tab t : NoDup (map fst t) ->
  (forall x, standard x -> find x (child t (reset_child (-1))) = None) /\
  (forall x e, In (x, e) (child t (reset_child (-1))) -> find x t = Some e /\ d_ce e = false).
Proof.
  intros ND. unfold child, reset_child. cbn [Z.ltb Z.compare fold_left child_step]. split.
  - intros x X. apply find_exec_none. rewrite !find_drop. destruct X as [->|[->| ->]]; reflexivity.
  - intros x e I. apply in_exec in I. destruct I as (I & CE). repeat (apply in_drop in I; destruct I as (_ & I)). split; [apply in_find; auto|exact CE].
Qed.

Lemma core_start t p H i cs : Core t p H -> may_start (H i) cs -> born_ok t (mkBirth i (p_past p) (child (p_tab p) cs)).
Proof.
  intros C MS. destruct C as [A1 A2 A3 A4 A5 A6 A7 A8 A9 A10 A11 A12 A13].
  assert (OUT : forall x e, find x (p_tab p) = Some e -> d_ce e = false -> (forall v, In (x, v) (H i) -> v_what v <> Client -> v_ce v = true) ->
            standard x \/ In (x, e) t \/ exists j c, unmarked (p_past p) x j c /\ (j <> i \/ exists nb, c = Open Client nb)).
  { intros x e F CE MINE. destruct (A11 x e F) as [Y|[Y|[Y|[Y|[j Y]]]]]; auto.
    - apply fst_in_pair in Y. destruct Y as (id & Y). destruct (A7 x id Y) as ((d & F' & _ & _ & K) & _). congruence.
    - apply fst_in_pair in Y. destruct Y as (id & Y). destruct (A8 x id Y) as ((d & F' & _ & K) & _). congruence.
    - apply fds_in in Y. destruct Y as (v & Y). destruct (A3 j x v Y) as ((d & F' & D1 & D2 & D3 & _) & P & _).
      assert (d = e) by congruence. subst d. destruct P as (k & c & U & W); [congruence|]. right. right. exists k, c. split; [exact U|].
      destruct (what_dec (v_what v) Client) as [WC|WC]; [auto|]. subst k. left. intros ->. rewrite (MINE v Y WC) in D3. congruence. }
  unfold born_ok. cbn [b_tab b_past b_by].
  destruct MS as [(f0 & f1 & v1 & -> & N & G0 & G1 & I1 & W1 & NB & ALL)|[(null & v & -> & G & EH & WN & NB)|(-> & EH)]].
  - destruct (A3 i f1 v1 I1) as ((d & FD & D1 & D2 & _) & _). destruct (process_child_tab _ f0 f1 _ A1 N G0 G1 FD) as (S & R). split.
    + intros x e X. apply R in X. destruct X as [X|(_ & X & CE)]; [auto|]. apply OUT; auto. intros v V _. eauto.
    + left. exists (d_id d). cbn [b_tab]. intros x X. rewrite (S x X). rewrite D1, D2, W1, NB. reflexivity.
  - assert (I1 : In (null, v) (H i)) by (rewrite EH; left; reflexivity). destruct (A3 i null v I1) as ((d & FD & D1 & D2 & _) & _).
    destruct (reset_child_tab _ null _ A1 G FD) as (S & R). split.
    + intros x e X. apply R in X. destruct X as [X|(NX & X & CE)]; [auto|]. apply OUT; auto. intros u V. rewrite EH in V. destruct V as [V|[]]. injection V as -> _. congruence.
    + right. left. exists (d_id d). cbn [b_tab]. intros x X. rewrite (S x X). rewrite D1, D2, WN, NB. reflexivity.
  - destruct (closed_child_tab _ A1) as (S & R). split; [|right; right; exact S].
    intros x e X. apply R in X. destruct X as (X & CE). apply OUT; auto. intros u V. rewrite EH in V. destruct V.
Qed.

(** ** Handing over *)
Lemma core_own t p H i fd v :
  Core t p H -> In (fd, v) (H i) -> v_ce v = true -> v_nb v = true ->
  Core t (mkProc (p_tab p) ((fd, id_of fd (p_tab p)) :: p_objs p) (p_files p) (p_watched p) (p_threads p) (p_next p) (p_past p) (p_born p) (p_alive p))
    (upd H i (delv fd (H i))).
Proof.
  intros C I CE NB. pose proof C as C0. destruct C as [A1 A2 A3 A4 A5 A6 A7 A8 A9 A10 A11 A12 A13].
  assert (FU : forall j x, In x (fds (upd H i (delv fd (H i)) j)) <-> In x (fds (H j)) /\ x <> fd).
  { intros j x. upd_case j i; [rewrite fds_delv; tauto|]. split; [|tauto]. intros X. split; [exact X|]. intros ->. apply N. eapply A4; eauto. eapply in_fds; eauto. }
  destruct (A3 i fd v I) as ((d & FD & D1 & D2 & D3 & D4 & _) & P & G). pose proof (in_fds _ _ _ I) as IF.
  assert (NO : ~ In fd (map fst (p_objs p))).
  { intros X. apply fst_in_pair in X. destruct X as (id & X). destruct (A7 _ _ X) as (_ & _ & _ & K). apply (K i IF). }
  assert (NFI : ~ In fd (map fst (p_files p))).
  { intros X. apply fst_in_pair in X. destruct X as (id & X). destruct (A8 _ _ X) as (_ & _ & _ & K). apply (K i IF). }
  assert (IDE : id_of fd (p_tab p) = d_id d) by (unfold id_of; rewrite FD; reflexivity).
  constructor; cbn [p_tab p_objs p_files p_watched p_past p_born]; auto.
  - intros j. upd_case j i; [apply delv_nodup; auto|auto].
  - intros j x u J. assert (X : In (x, u) (H j)) by (upd_case j i; [apply in_delv in J; tauto|exact J]). exact (A3 j x u X).
  - intros j j' x. rewrite !FU. intros [X _] [Y _]. eauto.
  - intros x X. destruct (A5 x X) as (B1 & B2 & B3 & B4 & B5). split; [exact B1|]. split; [exact B2|]. split; [|split; [exact B4|intros j; rewrite FU; intros [Y _]; apply (B5 j Y)]].
    cbn [p_objs map fst In]. intros [<-|Y]; [apply (B5 i IF)|auto].
  - intros x u X NS. destruct (A6 x u X NS) as (B1 & B2 & B3 & B4 & B5). split; [exact B1|]. split; [exact B2|]. split; [|split; [exact B4|intros j; rewrite FU; intros [Y _]; apply (B5 j Y)]].
    cbn [p_objs map fst In]. intros [<-|Y]; [apply (B5 i IF)|auto].
  - intros x id [X|X].
    + injection X as <- <-. split; [exists d; rewrite D2, D3, IDE; auto|]. split; [exact G|]. split; [exact NFI|]. intros j. rewrite FU. tauto.
    + destruct (A7 x id X) as (B1 & B2 & B3 & B4). split; [exact B1|]. split; [exact B2|]. split; [exact B3|]. intros j. rewrite FU. intros [Y _]. apply (B4 j Y).
  - intros x id X. destruct (A8 x id X) as (B1 & B2 & B3 & B4). split; [exact B1|]. split; [exact B2|]. split; [exact B3|]. intros j. rewrite FU. intros [Y _]. apply (B4 j Y).
  - cbn [map fst]. constructor; auto.
  - intros x e X. cbn [map fst In]. destruct (Z.eq_dec x fd) as [->|N]; [auto|]. destruct (A11 x e X) as [Y|[Y|[Y|[Y|[j Y]]]]]; auto. do 4 right. exists j. apply FU. auto.
  - intros x X. cbn [map fst In]. destruct (Z.eq_dec x fd) as [->|N]; [auto|]. destruct (A12 x X) as [Y|[j Y]]; auto. right. exists j. apply FU. auto.
Qed.
Lemma core_file t p H i fd v :
  Core t p H -> In (fd, v) (H i) -> v_ce v = true -> v_w v = false ->
  Core t (mkProc (p_tab p) (p_objs p) ((fd, id_of fd (p_tab p)) :: p_files p) (p_watched p) (p_threads p) (p_next p) (p_past p) (p_born p) (p_alive p))
    (upd H i (delv fd (H i))).
Proof.
  intros C I CE NB. pose proof C as C0. destruct C as [A1 A2 A3 A4 A5 A6 A7 A8 A9 A10 A11 A12 A13].
  assert (FU : forall j x, In x (fds (upd H i (delv fd (H i)) j)) <-> In x (fds (H j)) /\ x <> fd).
  { intros j x. upd_case j i; [rewrite fds_delv; tauto|]. split; [|tauto]. intros X. split; [exact X|]. intros ->. apply N. eapply A4; eauto. eapply in_fds; eauto. }
  destruct (A3 i fd v I) as ((d & FD & D1 & D2 & D3 & D4 & _) & P & G). pose proof (in_fds _ _ _ I) as IF.
  assert (NW : ~ In fd (p_watched p)) by (rewrite D4; congruence).
  assert (NO : ~ In fd (map fst (p_objs p))).
  { intros X. apply fst_in_pair in X. destruct X as (id & X). destruct (A7 _ _ X) as (_ & _ & _ & K). apply (K i IF). }
  assert (NFI : ~ In fd (map fst (p_files p))).
  { intros X. apply fst_in_pair in X. destruct X as (id & X). destruct (A8 _ _ X) as (_ & _ & _ & K). apply (K i IF). }
  assert (IDE : id_of fd (p_tab p) = d_id d) by (unfold id_of; rewrite FD; reflexivity).
  constructor; cbn [p_tab p_objs p_files p_watched p_past p_born]; auto.
  - intros j. upd_case j i; [apply delv_nodup; auto|auto].
  - intros j x u J. assert (X : In (x, u) (H j)) by (upd_case j i; [apply in_delv in J; tauto|exact J]). exact (A3 j x u X).
  - intros j j' x. rewrite !FU. intros [X _] [Y _]. eauto.
  - intros x X. destruct (A5 x X) as (B1 & B2 & B3 & B4 & B5). split; [exact B1|]. split; [exact B2|]. split; [exact B3|]. split; [|intros j; rewrite FU; intros [Y _]; apply (B5 j Y)].
    cbn [p_files map fst In]. intros [<-|Y]; [apply (B5 i IF)|auto].
  - intros x u X NS. destruct (A6 x u X NS) as (B1 & B2 & B3 & B4 & B5). split; [exact B1|]. split; [exact B2|]. split; [exact B3|]. split; [|intros j; rewrite FU; intros [Y _]; apply (B5 j Y)].
    cbn [p_files map fst In]. intros [<-|Y]; [apply (B5 i IF)|auto].
  - intros x id X. destruct (A7 x id X) as (B1 & B2 & B3 & B4). split; [exact B1|]. split; [exact B2|]. split; [|intros j; rewrite FU; intros [Y _]; apply (B4 j Y)].
    cbn [map fst In]. intros [<-|Y]; [apply (B4 i IF)|auto].
  - intros x id [X|X].
    + injection X as <- <-. split; [exists d; rewrite D3, IDE; auto|]. split; [exact G|]. split; [exact NW|]. intros j. rewrite FU. tauto.
    + destruct (A8 x id X) as (B1 & B2 & B3 & B4). split; [exact B1|]. split; [exact B2|]. split; [exact B3|]. intros j. rewrite FU. intros [Y _]. apply (B4 j Y).
  - cbn [map fst]. constructor; auto.
  - intros x e X. cbn [map fst In]. destruct (Z.eq_dec x fd) as [->|N]; [auto 10|]. destruct (A11 x e X) as [Y|[Y|[Y|[Y|[j Y]]]]]; auto 10. do 4 right. exists j. apply FU. auto.
  - intros x X. destruct (Z.eq_dec x fd) as [->|N]; [contradiction|]. destruct (A12 x X) as [Y|[j Y]]; auto. right. exists j. apply FU. auto.
Qed.

Lemma in_take fd l x id : In (x, id) (take fd l) <-> x <> fd /\ In (x, id) l.
Proof. unfold take. rewrite filter_In. cbn [fst]. rewrite negb_true_iff, Z.eqb_neq. intuition congruence. Qed.
Lemma fst_take fd l x : In x (map fst (take fd l)) <-> x <> fd /\ In x (map fst l).
Proof.
  rewrite !in_map_iff. split.
  - intros ([n e] & <- & I). apply in_take in I. cbn [fst] in *. destruct I. split; [auto|]. exists (n, e). auto.
  - intros (N & [n e] & <- & I). exists (n, e). split; [reflexivity|]. apply in_take. auto.
Qed.
Lemma take_nodup fd l : NoDup (map fst l) -> NoDup (map fst (take fd l)).
Proof.
  unfold take. induction l as [|[n e] l IH]; cbn [filter fst map]; [auto|]. intros ND. inversion ND as [|? ? NI ND']; subst.
  destruct (negb (fd =? n)); cbn [map fst]; [|auto]. constructor; [|auto]. intros I. apply NI. apply in_map_iff in I. destruct I as (x & <- & I).
  apply filter_In in I. apply in_map. tauto.
Qed.
Lemma has_in fd l : has fd l = true -> exists id, In (fd, id) l.
Proof. unfold has. intros X. apply existsb_exists in X. destruct X as ([x id] & I & E). apply Z.eqb_eq in E. cbn in E. subst. eauto. Qed.

Lemma core_take t p H i fd th :
  Core t p H -> H i = [] -> has fd (p_objs p) = true ->
  exists v, owned v /\ (v_w v = true -> v_nb v = true) /\
  Core t (mkProc (p_tab p) (take fd (p_objs p)) (p_files p) (p_watched p) th (p_next p) (p_past p) (p_born p) true) (upd H i [(fd, v)]).
Proof.
  intros C HE HA. apply has_in in HA. destruct HA as (id & HI). pose proof C as C0. destruct C as [A1 A2 A3 A4 A5 A6 A7 A8 A9 A10 A11 A12 A13].
  destruct (A7 fd id HI) as ((d & FD & D1 & D2 & D3) & G & NFI & NH). pose proof (in_pair_fst _ _ _ HI) as IO.
  exists (mkV (d_what d) true true (if in_dec Z.eq_dec fd (p_watched p) then true else false)). split; [split; reflexivity|]. split; [reflexivity|].
  match goal with |- Core _ _ (upd H i [(fd, ?v)]) => set (vv := v) end.
  assert (FU : forall j x, In x (fds (upd H i [(fd, vv)] j)) <-> In x (fds (H j)) \/ j = i /\ x = fd).
  { intros j x. upd_case j i; [rewrite HE; cbn [fds map fst In]; intuition congruence|tauto]. }
  constructor; cbn [p_tab p_objs p_files p_watched p_past p_born]; auto.
  - intros j. upd_case j i; [cbn [fds map fst]; repeat constructor; intros []|auto].
  - intros j x u J. assert (X : x = fd /\ u = vv /\ j = i \/ In (x, u) (H j)).
    { upd_case j i; [|auto]. destruct J as [E|[]]; injection E as <- <-; auto. }
    destruct X as [(-> & -> & ->)|X]; [|exact (A3 j x u X)]. split; [|split; [intros E; discriminate E|exact G]].
    exists d. cbn [p_tab p_watched vv v_what v_nb v_ce v_w]. split; [exact FD|]. split; [reflexivity|]. split; [exact D2|]. split; [exact D3|].
    split; [|reflexivity]. unfold vv. cbn [v_w]. destruct (in_dec Z.eq_dec fd (p_watched p)); split; auto; congruence.
  - intros j j' x. rewrite !FU. intros [X|[-> ->]] [Y|[-> Y]]; eauto; subst; exfalso; eapply NH; eauto.
  - intros x X. destruct (A5 x X) as (B1 & B2 & B3 & B4 & B5). split; [exact B1|]. split; [exact B2|]. split; [cbn [p_objs]; rewrite fst_take; tauto|]. split; [exact B4|].
    intros j. rewrite FU. intros [Y|[_ ->]]; [apply (B5 j Y)|auto].
  - intros x u X NS. destruct (A6 x u X NS) as (B1 & B2 & B3 & B4 & B5). split; [exact B1|]. split; [exact B2|]. split; [cbn [p_objs]; rewrite fst_take; tauto|]. split; [exact B4|].
    intros j. rewrite FU. intros [Y|[_ ->]]; [apply (B5 j Y)|auto].
  - intros x id' X. apply in_take in X. destruct X as (N & X). destruct (A7 x id' X) as (B1 & B2 & B3 & B4). split; [exact B1|]. split; [exact B2|]. split; [exact B3|].
    intros j. rewrite FU. intros [Y|[_ Y]]; [apply (B4 j Y)|auto].
  - intros x id' X. destruct (A8 x id' X) as (B1 & B2 & B3 & B4). split; [exact B1|]. split; [exact B2|]. split; [exact B3|].
    intros j. rewrite FU. intros [Y|[_ ->]]; [apply (B4 j Y)|]. apply NFI. eapply in_pair_fst; eauto.
  - apply take_nodup; auto.
  - intros x e X. rewrite fst_take. destruct (Z.eq_dec x fd) as [->|N]; [do 4 right; exists i; apply FU; auto|].
    destruct (A11 x e X) as [Y|[Y|[Y|[Y|[j Y]]]]]; auto. do 4 right. exists j. apply FU. auto.
  - intros x X. rewrite fst_take. destruct (Z.eq_dec x fd) as [->|N]; [right; exists i; apply FU; auto|].
    destruct (A12 x X) as [Y|[j Y]]; auto. right. exists j. apply FU. auto.
Qed.
Lemma core_take_file t p H i fd th :
  Core t p H -> H i = [] -> has fd (p_files p) = true ->
  exists v, v_w v = false /\
  Core t (mkProc (p_tab p) (p_objs p) (take fd (p_files p)) (p_watched p) th (p_next p) (p_past p) (p_born p) true) (upd H i [(fd, v)]).
Proof.
  intros C HE HA. apply has_in in HA. destruct HA as (id & HI). pose proof C as C0. destruct C as [A1 A2 A3 A4 A5 A6 A7 A8 A9 A10 A11 A12 A13].
  destruct (A8 fd id HI) as ((d & FD & D1 & D3) & G & NW & NH). pose proof (in_pair_fst _ _ _ HI) as IO.
  exists (mkV (d_what d) (d_nb d) true false). split; [reflexivity|].
  match goal with |- Core _ _ (upd H i [(fd, ?v)]) => set (vv := v) end.
  assert (FU : forall j x, In x (fds (upd H i [(fd, vv)] j)) <-> In x (fds (H j)) \/ j = i /\ x = fd).
  { intros j x. upd_case j i; [rewrite HE; cbn [fds map fst In]; intuition congruence|tauto]. }
  constructor; cbn [p_tab p_objs p_files p_watched p_past p_born]; auto.
  - intros j. upd_case j i; [cbn [fds map fst]; repeat constructor; intros []|auto].
  - intros j x u J. assert (X : x = fd /\ u = vv /\ j = i \/ In (x, u) (H j)).
    { upd_case j i; [|auto]. destruct J as [E|[]]; injection E as <- <-; auto. }
    destruct X as [(-> & -> & ->)|X]; [|exact (A3 j x u X)]. split; [|split; [intros E; discriminate E|exact G]].
    exists d. cbn [p_tab p_watched vv v_what v_nb v_ce v_w]. split; [exact FD|]. split; [reflexivity|]. split; [reflexivity|]. split; [exact D3|].
    split; [|discriminate]. split; [contradiction|discriminate].
  - intros j j' x. rewrite !FU. intros [X|[-> ->]] [Y|[-> Y]]; eauto; subst; exfalso; eapply NH; eauto.
  - intros x X. destruct (A5 x X) as (B1 & B2 & B3 & B4 & B5). split; [exact B1|]. split; [exact B2|]. split; [exact B3|]. split; [cbn [p_files]; rewrite fst_take; tauto|].
    intros j. rewrite FU. intros [Y|[_ ->]]; [apply (B5 j Y)|auto].
  - intros x u X NS. destruct (A6 x u X NS) as (B1 & B2 & B3 & B4 & B5). split; [exact B1|]. split; [exact B2|]. split; [exact B3|]. split; [cbn [p_files]; rewrite fst_take; tauto|].
    intros j. rewrite FU. intros [Y|[_ ->]]; [apply (B5 j Y)|auto].
  - intros x id' X. destruct (A7 x id' X) as (B1 & B2 & B3 & B4). split; [exact B1|]. split; [exact B2|]. split; [rewrite fst_take; tauto|].
    intros j. rewrite FU. intros [Y|[_ ->]]; [apply (B4 j Y)|auto].
  - intros x id' X. apply in_take in X. destruct X as (N & X). destruct (A8 x id' X) as (B1 & B2 & B3 & B4). split; [exact B1|]. split; [exact B2|]. split; [exact B3|].
    intros j. rewrite FU. intros [Y|[_ Y]]; [apply (B4 j Y)|auto].
  - apply take_nodup; auto.
  - intros x e X. rewrite fst_take. destruct (Z.eq_dec x fd) as [->|N]; [do 4 right; exists i; apply FU; auto|].
    destruct (A11 x e X) as [Y|[Y|[Y|[Y|[j Y]]]]]; auto 10. do 4 right. exists j. apply FU. auto.
  - intros x X. destruct (A12 x X) as [Y|[j Y]]; auto. right. exists j. apply FU. auto.
Qed.

Lemma core_move t p H i j fd v :
  Core t p H -> In (fd, v) (H i) -> v_what v = Client -> H j = [] -> j <> i ->
  Core t p (upd (upd H i (delv fd (H i))) j [(fd, v)]).
Proof.
  intros C I W HJ NJ. destruct C as [A1 A2 A3 A4 A5 A6 A7 A8 A9 A10 A11 A12 A13].
  set (H' := upd (upd H i (delv fd (H i))) j [(fd, v)]).
  assert (EI : forall k x u, In (x, u) (H' k) <-> (x <> fd /\ In (x, u) (H k)) \/ (k = j /\ x = fd /\ u = v)).
  { intros k x u. unfold H'. destruct (Nat.eq_dec k j) as [->|N].
    - rewrite upd_same, HJ. cbn [In]. split; [intros [E|[]]; injection E as <- <-; auto|intros [[_ []]|(_ & -> & ->)]; auto].
    - rewrite upd_other by exact N. destruct (Nat.eq_dec k i) as [->|N'].
      + rewrite upd_same, in_delv. intuition congruence.
      + rewrite upd_other by exact N'. split; [|intros [[_ X]|[X _]]; [exact X|congruence]]. intros X. left. split; [|exact X].
        intros ->. apply N'. eapply A4; eapply in_fds; eauto. }
  assert (FU : forall k x, In x (fds (H' k)) <-> (x <> fd /\ In x (fds (H k))) \/ (k = j /\ x = fd)).
  { intros k x. split.
    - intros X. apply fds_in in X. destruct X as (u & X). apply EI in X. destruct X as [[N X]|(-> & -> & _)]; [left; split; [exact N|eapply in_fds; eauto]|auto].
    - intros [[N X]|[-> ->]]; [apply fds_in in X; destruct X as (u & X); apply (in_fds _ u); apply EI; auto|apply (in_fds _ v); apply EI; auto]. }
  pose proof (in_fds _ _ _ I) as IF.
  assert (OUT : forall x, (forall k, ~ In x (fds (H k))) -> forall k, ~ In x (fds (H' k))).
  { intros x X k. rewrite FU. intros [[_ Y]|[_ ->]]; [apply (X k Y)|apply (X i IF)]. }
  assert (EX : forall x, (exists k, In x (fds (H k))) -> exists k, In x (fds (H' k))).
  { intros x (k & X). destruct (Z.eq_dec x fd) as [->|N]; [exists j; apply FU; auto|exists k; apply FU; auto]. }
  constructor; auto.
  - intros k. unfold H'. upd_case k j; [cbn [fds map fst]; repeat constructor; intros []|]. upd_case k i; [apply delv_nodup; auto|auto].
  - intros k x u X. apply EI in X. destruct X as [[_ X]|(-> & -> & ->)]; [exact (A3 k x u X)|]. destruct (A3 i fd v I) as (X1 & X2 & X3). split; [exact X1|]. split; [|exact X3].
    intros CE. destruct (X2 CE) as (a & c & U & Y). exists a, c. split; [exact U|]. rewrite W in *. exact Y.
  - intros k k' x. rewrite !FU. intros [[N X]|[-> ->]] [[N' Y]|[-> Y]]; try congruence; eauto.
  - intros x X. destruct (A5 x X) as (B1 & B2 & B3 & B4 & B5). repeat split; auto.
  - intros x u X NS. destruct (A6 x u X NS) as (B1 & B2 & B3 & B4 & B5). repeat split; auto.
  - intros x id X. destruct (A7 x id X) as (B1 & B2 & B3 & B4). auto.
  - intros x id X. destruct (A8 x id X) as (B1 & B2 & B3 & B4). auto.
  - intros x e X. destruct (A11 x e X) as [Y|[Y|[Y|[Y|Y]]]]; auto 6.
  - intros x X. destruct (A12 x X) as [Y|Y]; auto.
Qed.

(** ** A call *)
Lemma put_find t fd d d' : find fd t = Some d -> find fd (put fd d' t) = Some d'.
Proof. intros F. rewrite find_put, Z.eqb_refl. unfold is_open. rewrite F. reflexivity. Qed.
Lemma put_other t fd d' x : x <> fd -> find x (put fd d' t) = find x t.
Proof. intros N. rewrite find_put. apply Z.eqb_neq in N. rewrite N. reflexivity. Qed.
Lemma in_remove fd l x : In x (remove_fd fd l) <-> x <> fd /\ In x l.
Proof. unfold remove_fd. rewrite filter_In, negb_true_iff, Z.eqb_neq. intuition congruence. Qed.
Ltac quiet_all := intros; split; [discriminate|intros (?X & _); discriminate].
Ltac same_h C := match goal with |- exists h, _ /\ _ /\ Core _ _ _ => idtac end.

Lemma call_core t p H i c k gd p1 a :
  Core t p H -> good (H i) (Do c k) -> do_call i c gd p = (p1, a) ->
  exists H', good (H' i) (k a) /\ (forall j, j <> i -> H' j = H j) /\ Core t (told p1 (i, c, a)) H'.
Proof.
  intros C G E.
  assert (SAME : forall a', (forall x, quiet c a' x) -> Core t (told p (i, c, a')) H) by (intros a' Q; apply core_told; [exact C|intros; apply Q]).
  inversion G; subst; cbn [do_call] in E.
  - (* Open *) destruct gd.
    + injection E as <- <-.
      destruct (core_fresh t p H i _ w nb ((i, Open w nb, mkAns true (fresh (p_tab p)) (-1)) :: p_past p) (p_next p) C eq_refl) as (C' & F2 & FN).
      * intros j x v P. apply prov_keep; [exact P|quiet_all].
      * intros _. exists i, (Open w nb). split.
        -- exists [], (mkAns true (fresh (p_tab p)) (-1)), (p_past p). split; [reflexivity|]. split; [split; reflexivity|]. intros k' c' a' [].
        -- cbn [v_what]. destruct (what_dec w Client) as [->|]; [eauto|reflexivity].
      * eexists. split; [|split; [|exact C']]; [rewrite upd_same; auto|intros; apply upd_other; assumption].
    + injection E as <- <-. exists H. split; [assumption|]. split; [auto|]. apply SAME. quiet_all.
  - (* Pair *) destruct gd.
    + set (f0 := fresh (p_tab p)) in *. set (t1 := (f0, mkDsc w0 (p_next p) false false) :: p_tab p) in *. set (f1 := fresh t1) in *.
      injection E as <- <-. set (an := mkAns true f0 f1) in *.
      assert (PN : forall fd w, (fd = f0 \/ fd = f1) -> w <> Client -> prov ((i, Pair w0 w1, an) :: p_past p) i fd (mkV w false false false)).
      { intros fd w FD WN _. exists i, (Pair w0 w1). split; [|cbn [v_what]; destruct (what_dec w Client); [contradiction|reflexivity]].
        exists [], an, (p_past p). split; [reflexivity|]. split; [split; [reflexivity|exact FD]|]. intros k' c' a' []. }
      destruct (core_fresh t p H i f0 w0 false ((i, Pair w0 w1, an) :: p_past p) (p_next p) C eq_refl) as (C1 & F2 & FN).
      * intros j x v P. apply prov_keep; [exact P|quiet_all].
      * apply PN; auto.
      * destruct (core_fresh t _ _ i f1 w1 false ((i, Pair w0 w1, an) :: p_past p) (S (p_next p)) C1 eq_refl) as (C2 & F2' & FN').
        -- auto.
        -- apply PN; auto.
        -- rewrite upd_same in FN'. cbn [fds map fst In] in FN'.
           eexists. split; [|split; [|exact C2]]; [rewrite !upd_same; eauto 10|intros j J; rewrite !upd_other by assumption; reflexivity].
    + injection E as <- <-. exists H. split; [assumption|]. split; [auto|]. apply SAME. quiet_all.
  - (* Cloexec *) injection E as <- <-. destruct gd.
    + match goal with X : In _ (H i) |- _ => rename X into I end. pose proof (c_view _ _ _ C _ _ _ I) as ((d & FD & D1 & D2 & D3 & D4 & D5) & _).
      exists (upd H i (setv fd (mkV (v_what v) (v_nb v) true (v_w v)) (H i))). split; [rewrite upd_same; assumption|]. split; [intros; apply upd_other; assumption|].
      rewrite FD. eapply (core_touch t p H i fd v); try exact C; try exact I; try reflexivity; cbn [v_what v_nb v_ce v_w]; auto.
      * apply put_fst.
      * intros x N. apply put_other, N.
      * intros d' F'. eexists. split; [eapply put_find; eauto|]. cbn. auto.
      * discriminate.
      * discriminate.
      * intros x N. split; [discriminate|]. intros (X & _). injection X as ->. auto.
    + exists H. split; [assumption|]. split; [auto|]. apply SAME. intros x. split; [discriminate|]. intros (_ & X). discriminate X.
  - (* Nonblock *) injection E as <- <-. destruct gd.
    + match goal with X : In _ (H i) |- _ => rename X into I end. pose proof (c_view _ _ _ C _ _ _ I) as ((d & FD & D1 & D2 & D3 & D4 & D5) & _).
      exists (upd H i (setv fd (mkV (v_what v) true (v_ce v) (v_w v)) (H i))). split; [rewrite upd_same; assumption|]. split; [intros; apply upd_other; assumption|].
      unfold set_nb. rewrite FD. eapply (core_touch t p H i fd v); try exact C; try exact I; try reflexivity; cbn [v_what v_nb v_ce v_w]; auto.
      * apply put_fst.
      * intros x N. apply put_other, N.
      * intros d' F'. eexists. split; [eapply put_find; eauto|]. cbn. auto.
      * quiet_all.
      * quiet_all.
    + exists H. split; [assumption|]. split; [auto|]. apply SAME. quiet_all.
  - (* Blocking *) injection E as <- <-. destruct gd.
    + match goal with X : In _ (H i) |- _ => rename X into I end. pose proof (c_view _ _ _ C _ _ _ I) as ((d & FD & D1 & D2 & D3 & D4 & D5) & _).
      exists (upd H i (setv fd (mkV (v_what v) false (v_ce v) false) (H i))). split; [rewrite upd_same; assumption|]. split; [intros; apply upd_other; assumption|].
      unfold set_nb. rewrite FD. eapply (core_touch t p H i fd v); try exact C; try exact I; try reflexivity; cbn [v_what v_nb v_ce v_w]; auto.
      * apply put_fst.
      * intros x N. apply put_other, N.
      * intros d' F'. eexists. split; [eapply put_find; eauto|]. cbn. auto.
      * rewrite D4. match goal with X : v_w v = false |- _ => rewrite X end. tauto.
      * quiet_all.
      * quiet_all.
    + exists H. split; [assumption|]. split; [auto|]. apply SAME. quiet_all.
  - (* Watch *) injection E as <- <-.
    match goal with X : In _ (H i) |- _ => rename X into I end. pose proof (c_view _ _ _ C _ _ _ I) as ((d & FD & D1 & D2 & D3 & D4 & D5) & _).
    exists (upd H i (setv fd (mkV (v_what v) true (v_ce v) true) (H i))). split; [rewrite upd_same; assumption|]. split; [intros; apply upd_other; assumption|].
    eapply (core_touch t p H i fd v); try exact C; try exact I; try reflexivity; cbn [v_what v_nb v_ce v_w p_watched p_tab]; auto.
    + intros x N. cbn [In]. rewrite in_remove. intuition congruence.
    + intros d' F'. rewrite FD in F'. injection F' as <-. exists d. repeat split; auto. congruence.
    + cbn [In]. tauto.
    + quiet_all.
    + quiet_all.
  - (* Unwatch *) injection E as <- <-.
    match goal with X : In _ (H i) |- _ => rename X into I end. pose proof (c_view _ _ _ C _ _ _ I) as ((d & FD & D1 & D2 & D3 & D4 & D5) & _).
    exists (upd H i (setv fd (mkV (v_what v) (v_nb v) (v_ce v) false) (H i))). split; [rewrite upd_same; assumption|]. split; [intros; apply upd_other; assumption|].
    eapply (core_touch t p H i fd v); try exact C; try exact I; try reflexivity; cbn [v_what v_nb v_ce v_w p_watched p_tab]; auto.
    + intros x N. rewrite in_remove. tauto.
    + intros d' F'. rewrite FD in F'. injection F' as <-. exists d. auto.
    + rewrite in_remove. split; [tauto|discriminate].
    + discriminate.
    + quiet_all.
    + quiet_all.
  - (* Close *) injection E as <- <-.
    match goal with X : In _ (H i) |- _ => rename X into I end.
    exists (upd H i (delv fd (H i))). split; [rewrite upd_same; destruct gd; assumption|]. split; [intros; apply upd_other; assumption|].
    eapply (core_close t p H i fd v); auto. intros x N. split; [|intros (X & _); discriminate]. intros X. injection X as ->. auto.
  - (* Dup *) injection E as <- <-. exists H. split; [destruct gd; assumption|]. split; [auto|]. destruct gd; [|apply SAME; quiet_all].
    match goal with X : In _ (H i) |- _ => rename X into I end. match goal with X : standard _ |- _ => pose proof (core_dup _ _ _ _ _ _ _ C I X) as C' end.
    apply (core_told t _ H (i, Dup fd to, yes) C'). quiet_all.
  - (* Start *) injection E as <- <-. exists H. split; [destruct gd; assumption|]. split; [auto|]. destruct gd; [|apply SAME; quiet_all].
    match goal with X : may_start _ _ |- _ => pose proof (core_start _ _ _ _ _ C X) as B end.
    assert (C' : Core t (told p (i, Start cs, yes)) H) by (apply SAME; quiet_all).
    destruct C' as [A1 A2 A3 A4 A5 A6 A7 A8 A9 A10 A11 A12 A13]. constructor; auto.
    intros b [<-|I]; [exact B|exact (A13 b I)].
  - (* Try *) injection E as <- <-. exists H. split; [destruct gd; assumption|]. split; [auto|]. apply SAME; quiet_all.
  - (* Own *) injection E as <- <-. match goal with X : In _ (H i) |- _ => rename X into I end.
    exists (upd H i (delv fd (H i))). split; [rewrite upd_same; assumption|]. split; [intros; apply upd_other; assumption|].
    match goal with X : v_ce v = true, Y : v_nb v = true |- _ => pose proof (core_own _ _ _ _ _ _ C I X Y) as C' end.
    apply (core_told t _ _ (i, Own fd, yes) C'). quiet_all.
  - (* File *) injection E as <- <-. match goal with X : In _ (H i) |- _ => rename X into I end.
    exists (upd H i (delv fd (H i))). split; [rewrite upd_same; assumption|]. split; [intros; apply upd_other; assumption|].
    match goal with X : v_ce v = true, Y : v_w v = false |- _ => pose proof (core_file _ _ _ _ _ _ C I X Y) as C' end.
    apply (core_told t _ _ (i, File fd, yes) C'). quiet_all.
Qed.

(** ** All that happens *)
Definition Inv (t : tab) (p : proc) : Prop :=
  exists H, Core t p H /\ (forall i q, nth_error (p_threads p) i = Some q -> good (H i) q) /\
    (forall i, nth_error (p_threads p) i = None -> H i = []).
Lemma nth_set i q l j : nth_error (set_thread i q l) j = if Nat.eqb j i then match nth_error l i with Some _ => Some q | None => None end else nth_error l j.
Proof.
  revert i j. induction l as [|x l IH]; intros [|i] [|j]; cbn [set_thread nth_error Nat.eqb]; try reflexivity.
  - destruct (Nat.eqb j i); [destruct i|]; destruct j; reflexivity.
  - apply IH.
Qed.
Lemma set_length i q l : length (set_thread i q l) = length l.
Proof. revert i. induction l as [|x l IH]; intros [|i]; cbn [set_thread length]; auto. Qed.

Lemma step_inv t p e : Inv t p -> Inv t (step p e).
Proof.
  intros (H & C & TG & TN). unfold step. destruct (p_alive p) eqn:AL; cbn [negb]; [|exists H; auto]. destruct e as [i gd|i j].
  - destruct (nth_error (p_threads p) i) as [q|] eqn:TI; [|exists H; auto]. pose proof (TG i q TI) as G.
    destruct q as [| |c k|q k].
    + exists H; auto.
    + exists H. split; [apply core_threads; exact C|auto].
    + destruct (do_call i c gd p) as [p1 a] eqn:E. destruct (call_core _ _ _ _ _ _ _ _ _ C G E) as (H' & G' & O & C').
      assert (TH : p_threads p1 = p_threads p) by (clear - E; destruct c; cbn [do_call] in E; try (destruct gd); injection E as <- _; reflexivity).
      exists H'. split; [destruct C'; constructor; assumption|]. cbn [p_threads with_threads]. rewrite TH. split.
      * intros j q. rewrite nth_set. destruct (Nat.eqb_spec j i) as [->|N]; [rewrite TI; intros X; injection X as <-; exact G'|rewrite (O j N); apply TG].
      * intros j. rewrite nth_set. destruct (Nat.eqb_spec j i) as [->|N]; [rewrite TI; discriminate|rewrite (O j N); apply TN].
    + inversion G; subst. destruct gd.
      * match goal with X : In _ (H i), Y : v_what v = Client |- _ => rename X into I; rename Y into W end.
        set (n := length (p_threads p)).
        assert (LI : (i < n)%nat) by (apply nth_error_Some; congruence).
        assert (HN : H n = []) by (apply TN, nth_error_None; unfold n; lia).
        pose proof (core_move t p H i n fd v C I W HN ltac:(lia)) as C'.
        exists (upd (upd H i (delv fd (H i))) n [(fd, v)]). split; [destruct C'; constructor; assumption|]. cbn [p_threads with_threads].
        split; intros j; [intros r|].
        -- destruct (lt_dec j n) as [L|L].
           ++ rewrite nth_error_app1 by (rewrite set_length; exact L). rewrite nth_set. rewrite upd_other by lia. destruct (Nat.eqb_spec j i) as [->|N].
              ** rewrite TI, upd_same. intros X. injection X as <-. assumption.
              ** rewrite upd_other by exact N. apply TG.
           ++ rewrite nth_error_app2 by (rewrite set_length; unfold n in *; lia). rewrite set_length. fold n. destruct (Nat.eq_dec j n) as [->|N].
              ** rewrite Nat.sub_diag. cbn [nth_error]. rewrite upd_same. intros X. injection X as <-. assumption.
              ** replace (j - n)%nat with (S (j - n - 1)) by lia. cbn [nth_error]. destruct (j - n - 1)%nat; discriminate.
        -- intros X. apply nth_error_None in X. rewrite app_length, set_length in X. cbn [length] in X. fold n in X.
           rewrite upd_other, upd_other by lia. apply TN, nth_error_None. unfold n in *. lia.
      * exists H. split; [apply core_threads; exact C|]. cbn [p_threads with_threads]. rewrite app_nil_r. split.
        -- intros j r. rewrite nth_set. destruct (Nat.eqb_spec j i) as [->|N]; [rewrite TI; intros X; injection X as <-; assumption|apply TG].
        -- intros j. rewrite nth_set. destruct (Nat.eqb_spec j i) as [->|N]; [rewrite TI; discriminate|apply TN].
  - destruct (nth_error (p_threads p) i) as [q|] eqn:TI; [|exists H; auto]. destruct q; try (exists H; auto; fail).
    pose proof (TG i _ TI) as G. assert (HE : H i = []) by (inversion G; auto). clear G.
    assert (TGO : forall H' , (forall x, x <> i -> H' x = H x) -> good (H' i) (code j) ->
       (forall x q, nth_error (set_thread i (code j) (p_threads p)) x = Some q -> good (H' x) q) /\
       (forall x, nth_error (set_thread i (code j) (p_threads p)) x = None -> H' x = [])).
    { intros H' O GI. split; intros x; [intros q|]; rewrite nth_set; destruct (Nat.eqb_spec x i) as [->|N]; try (rewrite TI).
      - intros X. injection X as <-. exact GI.
      - rewrite (O x N). apply TG.
      - discriminate.
      - rewrite (O x N). apply TN. }
    destruct (subject j) as [fd|] eqn:SJ.
    + destruct (negb _); [exists H; auto|]. destruct (of_file j) eqn:OF.
      * destruct (has fd (p_files p)) eqn:HA; [|exists H; auto].
        destruct (core_take_file t p H i fd (set_thread i (code j) (p_threads p)) C HE HA) as (v & V & C'). exists (upd H i [(fd, v)]). split; [exact C'|].
        apply TGO; [intros; apply upd_other; assumption|]. rewrite upd_same. apply job_good. unfold starts_with. rewrite SJ, OF. eauto.
      * destruct (has fd (p_objs p)) eqn:HA; [|exists H; auto].
        destruct (core_take t p H i fd (set_thread i (code j) (p_threads p)) C HE HA) as (v & V & V' & C'). exists (upd H i [(fd, v)]). split; [exact C'|].
        apply TGO; [intros; apply upd_other; assumption|]. rewrite upd_same. apply job_good. unfold starts_with. rewrite SJ, OF. eauto.
    + exists H. split; [destruct C; constructor; assumption|]. apply TGO; [auto|]. rewrite HE. apply job_good. unfold starts_with. rewrite SJ. reflexivity.
Qed.
Lemma initial_inv t fg pid log : started_with t -> Inv t (initial t fg pid log).
Proof.
  intros (ND & ST & BD). exists (fun _ => []). split; [|split].
  - constructor; cbn [initial p_tab p_objs p_files p_watched p_past p_born map fst In fds]; unfold apart, fds; cbn [p_objs p_files initial map In]; auto; try tauto; try (constructor; fail).
    + intros fd S. split; [auto|]. tauto.
    + intros fd d I N. split; [apply in_find; auto|]. tauto.
    + intros fd d F. apply find_in in F. auto.
  - intros i q X. destruct i as [|[|i]]; cbn in X; try discriminate. injection X as <-. apply startup_good.
  - auto.
Qed.
Lemma run_inv t fg pid log es : started_with t -> Inv t (run (initial t fg pid log) es).
Proof.
  intros S. unfold run. assert (G : forall p, Inv t p -> Inv t (fold_left step es p)); [|apply G, initial_inv, S].
  induction es as [|e es IH]; intros p I; cbn [fold_left]; [exact I|]. apply IH, step_inv, I.
Qed.

(** ** What the threads of clients do not do *)
Inductive only (A : call -> Prop) (T : prog -> Prop) : prog -> Prop :=
| O_ret : only A T Ret
| O_die : only A T Die
| O_do c k : A c -> (forall a, only A T (k a)) -> only A T (Do c k)
| O_thread q k : T q -> (forall a, only A T (k a)) -> only A T (Thread q k).
Definition still (c : call) : Prop := match c with Open _ _ | Pair _ _ | Start _ => False | _ => True end.
Definition any (c : call) : Prop := True.
Definition clientless (c : call) : Prop := forall nb, c <> Open Client nb.
Definition none (q : prog) : Prop := False.
Definition mild : prog -> Prop := only still none.
Ltac o1 := match goal with
  | |- only _ _ Ret => apply O_ret
  | |- only _ _ Die => apply O_die
  | |- only _ _ (Do _ _) => apply O_do; [first [exact I|intros ?; discriminate]|intros ?]
  | |- only _ _ (Thread _ _) => apply O_thread; [|intros ?]
  | |- only _ _ (if ?b then _ else _) => destruct b
  | |- only _ _ (match ?o with None => _ | Some _ => _ end) => destruct o
  | |- only _ _ (let_go ?o _) => destruct o; cbn [let_go]
  | |- only _ _ (let_go_serial ?o _) => destruct o; cbn [let_go_serial]
  | |- only _ _ (let x := _ in _) => cbv zeta
  end; unf.
Lemma resets_only (A : call -> Prop) T n null p : A (Start (reset_child null)) -> only A T p -> only A T (resets n null p).
Proof. intros S O. induction n as [|n IH]; cbn [resets]; [exact O|]. apply O_do; auto. Qed.
Ltac unall := unfold connect_telnet_obj, connect_unixsock_obj, connect_process_obj, open_serial_obj, open_test_obj, connect_ipmi_obj, open_logfile_obj,
  open_daemon_logfile, inevent_init, watch_obj, unwatch_obj, close_obj, accept_client, process_client, destroy_req, create_client_obj, perform_reset; unf.
Lemma code_only j : only any mild (code j).
Proof. destruct j; cbn [code]; unall; repeat o1. all: try (apply resets_only; [exact I|repeat o1]). unfold mild. repeat o1. Qed.
Lemma code_clientless j : (forall q, j <> JAccept q) -> only clientless none (code j).
Proof.
  intros N. destruct j; try (exfalso; eapply N; reflexivity); cbn [code]; unall; repeat o1. all: apply resets_only; [intros ?; discriminate|repeat o1].
Qed.
Lemma startup_only fg pid log : only any mild (startup fg pid log).
Proof.
  unfold startup, tpoll_create, process_config, write_pidfile, create_listen_socket, begin_daemonize, end_daemonize; destruct fg, pid, log; unall; unf; repeat o1.
Qed.
Lemma startup_clientless fg pid log : only clientless none (startup fg pid log).
Proof.
  unfold startup, tpoll_create, process_config, write_pidfile, create_listen_socket, begin_daemonize, end_daemonize; destruct fg, pid, log; unall; unf; repeat o1.
Qed.
Definition tame (past : list (nat * call * answer)) : Prop := forall k c a, In (k, c, a) past -> k <> O -> still c.
Definition Main (p : proc) : Prop :=
  (forall i q, nth_error (p_threads p) i = Some q -> only any mild q /\ (i <> O -> mild q)) /\
  tame (p_past p) /\ (forall b, In b (p_born p) -> b_by b = O /\ tame (b_past b)).
Lemma mild_any q : mild q -> only any mild q.
Proof. intros M. unfold mild in M. induction M as [| |c k A K IH|q k F K IH]; [constructor|constructor|apply O_do; [exact I|exact IH]|destruct F]. Qed.
Lemma do_call_threads i c gd p : p_threads (fst (do_call i c gd p)) = p_threads p /\ p_past (fst (do_call i c gd p)) = p_past p.
Proof. destruct c; cbn [do_call]; destruct gd; auto. Qed.
Lemma do_call_born i c gd p b : In b (p_born (fst (do_call i c gd p))) -> In b (p_born p) \/ b_by b = i /\ b_past b = p_past p /\ exists cs, c = Start cs.
Proof. destruct c; cbn [do_call]; destruct gd; cbn [fst p_born]; auto. intros [<-|]; cbn [b_by b_past]; eauto 8. Qed.
Lemma step_main p e : by_main e -> Main p -> Main (step p e).
Proof.
  intros BM (T & P & B). unfold step. destruct (p_alive p); cbn [negb]; [|exact (conj T (conj P B))]. destruct e as [i gd|i j].
  - destruct (nth_error (p_threads p) i) as [q|] eqn:TI; [|exact (conj T (conj P B))]. destruct (T i q TI) as (O1 & O2). destruct q as [| |c k|q k].
    + exact (conj T (conj P B)).
    + exact (conj T (conj P B)).
    + destruct (do_call i c gd p) as [p1 a] eqn:E. pose proof (do_call_threads i c gd p) as (ET & EP). pose proof (do_call_born i c gd p) as EB.
      rewrite E in ET, EP, EB. cbn [fst] in *. unfold Main. cbn [p_threads p_past p_born with_threads]. rewrite ET, EP. split; [|split].
      * intros j q. rewrite nth_set. destruct (Nat.eqb_spec j i) as [->|N]; [|apply T]. rewrite TI. intros X. injection X as <-. split.
        -- inversion O1; auto.
        -- intros N. specialize (O2 N). inversion O2; unfold mild; auto.
      * intros k' c' a' [X|X] N; [|eapply P; eauto]. injection X as <- <- <-. specialize (O2 N). inversion O2; auto.
      * intros b X. destruct (EB b X) as [X'|(X1 & X2 & cs & ->)]; [apply B, X'|]. rewrite X1, X2. split; [|exact P].
        destruct (Nat.eq_dec i 0) as [|N]; [auto|]. specialize (O2 N). inversion O2. contradiction.
    + split; [|exact (conj P B)]. cbn [p_threads with_threads]. intros j r X.
      assert (Y : nth_error (set_thread i (k (mkAns gd (-1) (-1))) (p_threads p)) j = Some r \/ r = q /\ gd = true).
      { destruct gd; [|rewrite app_nil_r in X; auto]. destruct (lt_dec j (length (p_threads p))) as [L|L].
        - rewrite nth_error_app1 in X by (rewrite set_length; exact L). auto.
        - rewrite nth_error_app2 in X by (rewrite set_length; lia). rewrite set_length in X. destruct (j - length (p_threads p))%nat as [|[|n]]; cbn in X; try discriminate. injection X as <-. auto. }
      destruct Y as [Y|[-> _]].
      * rewrite nth_set in Y. destruct (Nat.eqb_spec j i) as [->|N]; [|apply T, Y]. rewrite TI in Y. injection Y as <-. split.
        -- inversion O1; auto.
        -- intros N. specialize (O2 N). inversion O2; contradiction.
      * inversion O1; subst. split; [apply mild_any; assumption|auto].
  - cbn in BM. subst i. destruct (nth_error (p_threads p) 0) as [q|] eqn:TI; [|exact (conj T (conj P B))]. destruct q; try exact (conj T (conj P B)).
    assert (GO : forall o f w, Main (mkProc (p_tab p) o f w (set_thread 0 (code j) (p_threads p)) (p_next p) (p_past p) (p_born p) true)).
    { intros o f w. split; [|exact (conj P B)]. cbn [p_threads]. intros i q. rewrite nth_set. destruct (Nat.eqb_spec i 0) as [->|N]; [|apply T].
      rewrite TI. intros X. injection X as <-. split; [apply code_only|intros N; destruct (N eq_refl)]. }
    destruct (subject j) as [fd|]; [|apply GO]. destruct (negb _); [exact (conj T (conj P B))|].
    destruct (of_file j); [destruct (has fd (p_files p))|destruct (has fd (p_objs p))]; try apply GO; exact (conj T (conj P B)).
Qed.
Lemma run_main t fg pid log es : Forall by_main es -> Main (run (initial t fg pid log) es).
Proof.
  intros F. unfold run. assert (G : forall p, Main p -> Main (fold_left step es p)).
  { induction F as [|e es B F IH]; intros p M; cbn [fold_left]; [exact M|]. apply IH, step_main; assumption. }
  apply G. split; [|split; [intros k c a []|intros b []]].
  intros i q. destruct i as [|[|i]]; cbn [initial p_threads nth_error]; try discriminate. intros X. injection X as <-. split; [apply startup_only|intros N; destruct (N eq_refl)].
Qed.

Definition lone (past : list (nat * call * answer)) : Prop := forall k c a, In (k, c, a) past -> k = O /\ clientless c.
Definition Alone (p : proc) : Prop :=
  (exists q, p_threads p = [q] /\ only clientless none q) /\ lone (p_past p) /\ (forall b, In b (p_born p) -> b_by b = O /\ lone (b_past b)).
Lemma step_alone p e : no_client e -> Alone p -> Alone (step p e).
Proof.
  intros NC A. pose proof A as ((q & T & O) & P & B). unfold step. destruct (p_alive p); cbn [negb]; [|exact A].
  destruct e as [i gd|i j]; (destruct i as [|i]; [|rewrite T; cbn [nth_error]; destruct i; exact A]); rewrite T; cbn [nth_error].
  - destruct q as [| |c k|q k].
    + exact A.
    + unfold Alone; cbn [p_threads p_past p_born with_threads]. split; [exists Die; auto|auto].
    + destruct (do_call 0 c gd p) as [p1 a] eqn:E. pose proof (do_call_threads 0 c gd p) as (ET & EP). pose proof (do_call_born 0 c gd p) as EB.
      rewrite E in ET, EP, EB. cbn [fst] in *. inversion O; subst. unfold Alone. cbn [p_threads p_past p_born with_threads]. rewrite ET, EP, T. split; [|split].
      * exists (k a). split; [reflexivity|auto].
      * intros k' c' a' [X|X]; [injection X as <- <- <-; auto|eapply P; eauto].
      * intros b X. destruct (EB b X) as [X'|(X1 & X2 & _)]; [apply B, X'|]. rewrite X2. auto.
    + inversion O; contradiction.
  - destruct q; try exact A.
    assert (GO : forall o f w, Alone (mkProc (p_tab p) o f w (set_thread 0 (code j) [Ret]) (p_next p) (p_past p) (p_born p) true)).
    { intros o f w. split; [|exact (conj P B)]. cbn [p_threads set_thread]. exists (code j). split; [reflexivity|]. apply code_clientless. intros q ->. exact NC. }
    destruct (subject j) as [fd|]; [|apply GO]. destruct (negb _); [exact A|].
    destruct (of_file j); [destruct (has fd (p_files p))|destruct (has fd (p_objs p))]; try apply GO; exact A.
Qed.
Lemma run_alone t fg pid log es : Forall no_client es -> Alone (run (initial t fg pid log) es).
Proof.
  intros F. unfold run. assert (G : forall p, Alone p -> Alone (fold_left step es p)).
  { induction F as [|e es B F IH]; intros p M; cbn [fold_left]; [exact M|]. apply IH, step_alone; assumption. }
  apply G. split; [exists (startup fg pid log); split; [reflexivity|apply startup_clientless]|split; [intros k c a []|intros b []]].
Qed.
