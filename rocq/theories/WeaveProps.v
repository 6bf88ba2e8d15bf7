(** C122: sessions that are set up and torn down at the same time by different threads do
    not corrupt each other's links, as long as no two threads are busy with the same
    client.  That proviso is not kept by the code: see the refutations. *)
From Verif Require Import Base WeaveModel WeaveSpec WeaveProof.
Set Implicit Arguments.

(** Whatever the threads and however their list operations mix, a client that no thread
    is busy with lists exactly the consoles that list it. *)
Theorem C122_symmetric isc w es c : fresh isc w -> apart isc w es -> isc c = true ->
  ~ pending isc (run isc w es) c -> symmetric (w_l (run isc w es)) c.
Proof. intros F A Ic N. apply (@inv_symmetric isc); auto. apply inv_run; [now apply inv_fresh|exact A]. Qed.
Print Assumptions C122_symmetric.

(** No console, and nothing else, ever refers to a client that was destroyed. *)
Theorem C122_no_dangling isc w es c : fresh isc w -> apart isc w es ->
  gone (w_l (run isc w es)) c = true -> unlinked (w_l (run isc w es)) c /\ ~ pending isc (run isc w es) c.
Proof.
  intros F A G. assert (I : inv isc (run isc w es)) by (apply inv_run; [now apply inv_fresh|exact A]). apply (i_gone I c G).
Qed.
Print Assumptions C122_no_dangling.

(** What a thread does with its client is what it would do if it ran alone, however many
    operations of others come in between. *)
Theorem C122_alone isc w es1 p es2 c : fresh isc w -> apart isc w (es1 ++ Start p :: es2) -> isc c = true ->
  (forall a, In a p -> call_client isc a = c) ->
  (forall p', In (Start p') es2 -> ~ In c (map (call_client isc) p')) ->
  p <> [] ->
  let w1 := run isc w es1 in
  let w2 := run isc w (es1 ++ Start p :: es2) in
  let t := length (w_t w1) in
  same_for c (w_l w2) (fst (alone isc (runs_of t es2) (w_l w1) (map begin p))) /\
  nth_error (w_t w2) t = Some (snd (alone isc (runs_of t es2) (w_l w1) (map begin p))).
Proof.
  intros F A Ic AB NS NE. cbn zeta. apply apart_app in A. destruct A as [A1 A2].
  assert (I1 : inv isc (run isc w es1)) by (apply inv_run; [now apply inv_fresh|exact A1]).
  assert (ER : run isc w (es1 ++ Start p :: es2) = run isc (step isc (run isc w es1) (Start p)) es2) by (unfold run; now rewrite fold_left_app).
  rewrite ER. clear ER.
  set (w1 := run isc w es1) in *. destruct A2 as [A2 A3]. pose proof (@inv_step isc w1 (Start p) I1 A2) as I2.
  destruct A2 as (G & T & N).
  assert (AB' : about isc c (map begin p)).
  { intros i H. apply in_map_iff in H. destruct H as (a & <- & H). rewrite Forall_forall in G. destruct (@begin_wf isc a (G a H)) as [_ ->]. auto. }
  apply run_alone; auto.
  - cbn [step w_t]. rewrite nth_error_app2, Nat.sub_diag by lia. reflexivity.
  - intros t' th i H J E. cbn [step w_t] in H. destruct (Nat.lt_ge_cases t' (length (w_t w1))) as [Lt|Ge].
    + rewrite nth_error_app1 in H by exact Lt. exfalso. destruct p as [|a p']; [congruence|].
      destruct (N c) as [N1 _]; [left; apply AB; now left|]. apply N1. exists th, i. split; [now apply nth_error_In in H|]. auto.
    + rewrite nth_error_app2 in H by exact Ge. destruct (t' - length (w_t w1)) as [|n] eqn:E'; cbn in H; [lia|destruct n; discriminate].
  - apply same_refl.
Qed.
Print Assumptions C122_alone.

(** A read-write session, four operations: whatever other threads do meanwhile, the
    client ends up with the console on both its lists and on both lists of the console,
    once each. *)
Theorem C122_linked isc w es1 es2 c k : fresh isc w -> apart isc w (es1 ++ Start [Link c k; Link k c] :: es2) ->
  isc c = true -> isc k = false -> unlinked (w_l (run isc w es1)) c ->
  (forall p', In (Start p') es2 -> ~ In c (map (call_client isc) p')) ->
  4 <= runs_of (length (w_t (run isc w es1))) es2 ->
  let l := w_l (run isc w (es1 ++ Start [Link c k; Link k c] :: es2)) in
  rd l c = [k] /\ wr l c = [k] /\ forall x, times c (rd l x) = (if x =? k then 1 else 0) /\ times c (wr l x) = (if x =? k then 1 else 0).
Proof.
  intros F A Ic Ik (R & W & N) NS Hn. cbn zeta.
  assert (Nck : c <> k) by congruence.
  destruct (@C122_alone isc w es1 [Link c k; Link k c] es2 c F A Ic) as [S _]; auto.
  { intros a [<-|[<-|[]]]; cbn; unfold of_pair; rewrite ?Ic, ?Ik; reflexivity. }
  { discriminate. }
  set (l1 := w_l (run isc w es1)) in *. set (n := runs_of _ es2) in *.
  replace n with (4 + (n - 4)) in S by lia. rewrite alone_add in S.
  set (l4 := set_wr (set_rd (set_wr (set_rd l1 c (rd l1 c ++ [k])) k (wr l1 k ++ [c])) k (rd l1 k ++ [c])) c (wr l1 c ++ [k])).
  assert (E : alone isc 4 l1 (map begin [Link c k; Link k c]) = (l4, [])).
  { cbn [map begin alone exec app]. unfold l4, set_wr, set_rd. cbn [rd wr eof gone]. rewrite (@put_other _ _ c k), (@put_other _ _ k c) by congruence. reflexivity. }
  rewrite E in S. cbn [fst snd] in S. rewrite alone_nil in S. cbn [fst] in S. destruct S as (S1 & S2 & _ & _ & S5).
  rewrite S1, S2. unfold l4, set_wr, set_rd in *. cbn [rd wr] in *. rewrite R, W in *. split; [|split].
  - rewrite put_other by congruence. apply put_same.
  - apply put_same.
  - intros x. destruct (S5 x) as [-> ->]. destruct (N x) as [N1 N2]. apply times_in in N1, N2. unfold put.
    destruct (Nat.eqb_spec x k); destruct (Nat.eqb_spec x c); subst; try congruence; cbn [app]; rewrite ?times_app, ?times_one, ?Nat.eqb_refl;
      destruct (Nat.eqb_spec k c); try congruence; lia.
Qed.
Print Assumptions C122_linked.

(** Detaching or hanging up takes at most six list operations for each link and three
    more; then nothing refers to the client, whatever other threads do meanwhile. *)
Theorem C122_detached isc w es1 es2 c (fin : bool) :
  let a := if fin then Hangup c else Detach c in
  let w1 := run isc w es1 in
  let w2 := run isc w (es1 ++ Start [a] :: es2) in
  fresh isc w -> apart isc w (es1 ++ Start [a] :: es2) -> isc c = true ->
  (forall p', In (Start p') es2 -> ~ In c (map (call_client isc) p')) ->
  6 * (length (wr (w_l w1) c) + length (rd (w_l w1) c)) + 3 <= runs_of (length (w_t w1)) es2 ->
  unlinked (w_l w2) c /\ nth_error (w_t w2) (length (w_t w1)) = Some [] /\ (fin = true -> gone (w_l w2) c = true).
Proof.
  cbn zeta. intros F A Ic NS Hn. set (a := if fin then Hangup c else Detach c) in *.
  destruct (@C122_alone isc w es1 [a] es2 c F A Ic) as [S P]; auto.
  { intros b [<-|[]]. destruct fin; reflexivity. }
  { discriminate. }
  apply apart_app in A. destruct A as [A1 [A2 _]].
  assert (I1 : inv isc (run isc w es1)) by (apply inv_run; [now apply inv_fresh|exact A1]).
  assert (Sy : symmetric (w_l (run isc w es1)) c).
  { apply (@inv_symmetric isc); auto. destruct A2 as (_ & _ & N). apply N. left. unfold a. destruct fin; reflexivity. }
  destruct (@detach_ends isc c fin _ _ Ic (i_typed I1) Sy Hn) as (D1 & D2 & D3).
  assert (E : map begin [a] = [PeekW c fin]) by (unfold a; destruct fin; reflexivity). rewrite E in *.
  rewrite D1 in P. split; [|split].
  - apply same_unlinked with (2 := D2). apply same_sym. exact S.
  - exact P.
  - intros H. destruct S as (_ & _ & _ & -> & _). auto.
Qed.
Print Assumptions C122_detached.

(** Consoles 0 and 1; the others are clients.  Two sessions with console 0 are set up
    while a third is torn down. *)
Definition k2 (o : nat) : bool := 2 <=? o.
Definition none : weave := mkW (mkL (fun _ => []) (fun _ => []) (fun _ => false) (fun _ => false)) [].
Definition session (c k : nat) : list call := [Link c k; Link k c].
Definition mix : list event :=
  [Start (session 2 0)] ++ repeat (Run 0) 4 ++ [Start (session 3 0); Start [Hangup 2]; Start (session 4 0)] ++
  [Run 1; Run 2; Run 3; Run 2; Run 1; Run 2; Run 3; Run 1; Run 2; Run 2; Run 3; Run 2; Run 2; Run 3; Run 1] ++ repeat (Run 2) 9.
Example C122_example :
  fresh k2 none /\ apart k2 none mix /\
  let l := w_l (run k2 none mix) in
  rd l 0 = [3; 4] /\ wr l 0 = [3; 4] /\ map (rd l) [2; 3; 4] = [[]; [0]; [0]] /\ gone l 2 = true /\ eof l 2 = true.
Proof.
  split; [repeat split; intros; try tauto; cbn; tauto|]. split; [|vm_compute; auto 10].
  unfold mix. cbn [app repeat apart starts_apart]. 
  assert (NP : forall w c, existsb (fun t => existsb (fun i => client_of k2 i =? c) t) (w_t w) = false -> ~ pending k2 w c).
  { intros w c H (t & i & H1 & H2 & H3). assert (X : existsb (fun t => existsb (fun i => client_of k2 i =? c) t) (w_t w) = true); [|congruence].
    apply existsb_exists. exists t. split; [exact H1|]. apply existsb_exists. exists i. split; [exact H2|]. now apply Nat.eqb_eq. }
  repeat (split; [first [exact I | split; [repeat constructor|split; [cbn; intuition|]]; intros c H; cbn in H; decompose [or] H; try contradiction; subst c; (split; [apply NP; vm_compute; reflexivity|vm_compute; reflexivity])]|]).
  exact I.
Qed.

(** A client may be stolen from while it is still being linked: client 2 broadcasts to
    consoles 0 and 1, and client 3 forces console 0 when 2 is half linked to console 1.
    Client 2 loses all its links but one: console 1 still lists it as a writer, although
    it lists nothing.  Hence its destruction leaves that entry behind, and whatever visits the
    writers of console 1 next uses freed memory. *)
Theorem C122_stolen_refuted :
  let es := [Start [Link 2 0; Link 2 1]; Run 0; Run 0; Run 0; Start [Force 3 0]] ++ repeat (Run 1) 20 ++ [Run 0; Start [Hangup 2]] ++ repeat (Run 2) 3 in
  let w := run k2 none es in
  w_t w = [[]; []; []] /\ gone (w_l w) 2 = true /\ rd (w_l w) 2 = [] /\ wr (w_l w) 1 = [2].
Proof. vm_compute. auto. Qed.
Print Assumptions C122_stolen_refuted.

(** A client is put on the server's list before it is linked; if its connection ends at
    once, the main loop tears it down while its own thread goes on linking: both the
    console's writers and its readers then hold a destroyed client. *)
Theorem C122_hangup_refuted :
  let es := [Start (session 2 0); Run 0; Start [Hangup 2]] ++ repeat (Run 1) 8 ++ repeat (Run 0) 3 in
  let w := run k2 none es in
  w_t w = [[]; []] /\ gone (w_l w) 2 = true /\ wr (w_l w) 0 = [2] /\ rd (w_l w) 0 = [2].
Proof. vm_compute. auto. Qed.
Print Assumptions C122_hangup_refuted.
