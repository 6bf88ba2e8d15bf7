(** Properties C115, C116, C117: the programs the daemon starts get none of its descriptors; what
    it waits for never blocks it; no descriptor is lost or taken for another. *)
From Verif Require Import Base BaseProof DescModel DescSpec DescProof DescInv.
Local Open Scope Z_scope.

(** ** C115 *)
(** Whatever the threads do and in whichever order, and whichever calls fail: a descriptor that a
    program (a reset command, the program of a process console) has when it begins is one of its
    standard three, or one that the daemon itself was started with, or one that the daemon made
    and had neither closed nor marked when the program was started - made by a thread other than
    the one that started it, or by accepting a client. *)
Theorem C115_programs t fg pid log es b fd d :
  started_with t -> In b (p_born (run (initial t fg pid log) es)) -> In (fd, d) (b_tab b) ->
  standard fd \/ In (fd, d) t \/ exists j c, unmarked (b_past b) fd j c /\ (j <> b_by b \/ exists nb, c = Open Client nb).
Proof. intros S B I. destruct (run_inv t fg pid log es S) as (H & C & _). destruct (c_born _ _ _ C b B) as (X & _). eauto. Qed.

(** And while no client's thread opens a console again (which it does if the console is down when
    the client asks for it) it is the socket of a client that was just accepted, or nothing. *)
Theorem C115_main t fg pid log es b fd d :
  started_with t -> Forall by_main es -> In b (p_born (run (initial t fg pid log) es)) -> In (fd, d) (b_tab b) ->
  standard fd \/ In (fd, d) t \/ exists nb, unmarked (b_past b) fd 0%nat (Open Client nb).
Proof.
  intros S M B I. destruct (C115_programs _ _ _ _ _ _ _ _ S B I) as [X|[X|(j & c & U & X)]]; auto. right. right.
  destruct (run_main t fg pid log es M) as (_ & _ & Y). destruct (Y b B) as (BY & T).
  assert (J : j = O).
  { destruct (Nat.eq_dec j 0) as [|N]; [auto|]. exfalso. destruct U as (s & a & bf & E & MK & _).
    assert (ST : still c) by (eapply T; [rewrite E; apply in_app_iff; right; left; reflexivity|exact N]). destruct MK as (_ & MK). destruct c; cbn in *; contradiction. }
  subst j. destruct X as [X|[nb ->]]; [congruence|]. eauto.
Qed.

(** Without clients there is nothing at all. *)
Theorem C115_alone t fg pid log es b fd d :
  started_with t -> Forall no_client es -> In b (p_born (run (initial t fg pid log) es)) -> In (fd, d) (b_tab b) -> standard fd \/ In (fd, d) t.
Proof.
  intros S M B I. destruct (C115_programs _ _ _ _ _ _ _ _ S B I) as [X|[X|(j & c & U & X)]]; auto. exfalso.
  destruct (run_alone t fg pid log es M) as (_ & _ & Y). destruct (Y b B) as (BY & L). destruct U as (s & a & bf & E & _).
  destruct (L j c a) as (-> & CL); [rewrite E; apply in_app_iff; right; left; reflexivity|]. destruct X as [X|[nb ->]]; [congruence|]. apply (CL nb eq_refl).
Qed.

(** The standard three of a program: all are its end of the pair of sockets of its console, or
    all are /dev/null, or all are closed. *)
Theorem C115_standard t fg pid log es b :
  started_with t -> In b (p_born (run (initial t fg pid log) es)) ->
  (exists id, forall fd, standard fd -> find fd (b_tab b) = Some (mkDsc ProgramEnd id true false)) \/
  (exists id, forall fd, standard fd -> find fd (b_tab b) = Some (mkDsc Null id false false)) \/
  (forall fd, standard fd -> find fd (b_tab b) = None).
Proof. intros S B. destruct (run_inv t fg pid log es S) as (H & C & _). destruct (c_born _ _ _ C b B) as (_ & X). exact X. Qed.

Definition tty (fd : Z) : Z * dsc := (fd, mkDsc Inherited 0 false false).
Definition usual : tab := [tty 0; tty 1; tty 2].
Lemma usual_ok : started_with usual.
Proof.
  split; [|split]; cbn.
  - repeat constructor; cbn; intuition congruence.
  - unfold standard. intuition.
  - repeat constructor; cbn; lia.
Qed.
Definition go (i n : nat) : list ev := repeat (Go i true) n.
Definition started : list ev := go 0 60.
Definition first_born (p : proc) : birth := match p_born p with b :: _ => b | [] => mkBirth 0 [] [] end.
Lemma first_in p : match p_born p with [] => false | _ => true end = true -> In (first_born p) (p_born p).
Proof. unfold first_born. destruct (p_born p); [discriminate|left; reflexivity]. Qed.

(** The program of a process console, and a reset command after it: each has three descriptors. *)
Example C115_example :
  map b_tab (p_born (run (initial usual false true true) (started ++ Begin 0 (JProcess None) :: go 0 20 ++ Begin 0 (JReset 1) :: go 0 20))) =
    [[(2, mkDsc Null 14 false false); (1, mkDsc Null 14 false false); (0, mkDsc Null 14 false false)];
     [(2, mkDsc ProgramEnd 13 true false); (1, mkDsc ProgramEnd 13 true false); (0, mkDsc ProgramEnd 13 true false)]].
Proof. vm_compute. reflexivity. Qed.

(** The socket of a client is marked by the client's own thread, and only when its request has
    been read and is a connection to consoles: a reset command, or the program of a process console,
    that is started before that has the socket.  (The program then keeps the client's connection
    open after the daemon closed it, and it can read and write it.)
    server.c:975-1017; server-obj.c:117-118 *)
Theorem C115_accept_refuted :
  ~ (forall t fg pid log es b fd d,
       started_with t -> Forall by_main es -> In b (p_born (run (initial t fg pid log) es)) -> In (fd, d) (b_tab b) -> standard fd \/ In (fd, d) t).
Proof.
  intros X.
  set (es := started ++ Begin 0 (JAccept false) :: go 0 5 ++ Begin 0 (JReset 1) :: go 0 5).
  assert (F : Forall by_main es) by (repeat constructor).
  assert (B : In (first_born (run (initial usual false true true) es)) (p_born (run (initial usual false true true) es))) by (apply first_in; vm_compute; reflexivity).
  assert (I : In (6, mkDsc Client 12 false false) (b_tab (first_born (run (initial usual false true true) es)))) by (clear X B; vm_compute; auto 10).
  destruct (X usual false true true es _ _ _ usual_ok F B I) as [[Y|[Y|Y]]|[Y|[Y|[Y|[]]]]]; discriminate Y.
Qed.

(** A client's thread that opens a console again has the descriptor unmarked for a moment, and so
    has the main thread: a program that the other thread starts at that moment keeps the console's
    connection.  server-sock.c:905-976; server-telnet.c:197-220 *)
Theorem C115_thread_refuted :
  ~ (forall t fg pid log es b fd d,
       started_with t -> In b (p_born (run (initial t fg pid log) es)) -> In (fd, d) (b_tab b) -> standard fd \/ In (fd, d) t \/ d_what d = Client).
Proof.
  intros X.
  set (es := started ++ Begin 0 (JAccept false) :: go 0 5 ++ go 1 20 ++ Begin 1 (JTelnet None) :: go 1 4 ++ Begin 0 (JReset 1) :: go 0 5).
  assert (B : In (first_born (run (initial usual false true true) es)) (p_born (run (initial usual false true true) es))) by (apply first_in; vm_compute; reflexivity).
  assert (I : In (9, mkDsc TelnetSock 13 false false) (b_tab (first_born (run (initial usual false true true) es)))) by (clear X B; vm_compute; auto 10).
  destruct (X usual false true true es _ _ _ usual_ok B I) as [[Y|[Y|Y]]|[[Y|[Y|[Y|[]]]]|Y]]; discriminate Y.
Qed.

(** What the daemon was started with and is not marked is there in every program: the daemon
    closes none but the standard three.  server.c:281-320 *)
Theorem C115_inherited_refuted :
  ~ (forall t fg pid log es b fd d,
       started_with t -> Forall no_client es -> In b (p_born (run (initial t fg pid log) es)) -> In (fd, d) (b_tab b) -> standard fd).
Proof.
  intros X. set (t := usual ++ [tty 3]). set (es := started ++ Begin 0 (JReset 1) :: go 0 5).
  assert (S : started_with t).
  { split; [|split]; cbn; [repeat constructor; cbn; intuition congruence|unfold standard; intuition|repeat constructor; cbn; lia]. }
  assert (F : Forall no_client es) by (repeat constructor).
  assert (B : In (first_born (run (initial t false true true) es)) (p_born (run (initial t false true true) es))) by (apply first_in; vm_compute; reflexivity).
  assert (I : In (tty 3) (b_tab (first_born (run (initial t false true true) es)))) by (clear X B; vm_compute; auto 10).
  destruct (X t false true true es _ _ _ S F B I) as [Y|[Y|Y]]; discriminate Y.
Qed.

(** ** C116 *)
(** Every descriptor that the daemon waits for in poll() is open and is nonblocking, in every
    state that it can be in: so that no peer that sends nothing more or reads nothing more
    can hold it up. *)
Theorem C116_nonblocking t fg pid log es fd :
  started_with t -> In fd (p_watched (run (initial t fg pid log) es)) ->
  exists d, find fd (p_tab (run (initial t fg pid log) es)) = Some d /\ d_nb d = true.
Proof.
  intros S W. destruct (run_inv t fg pid log es S) as (H & C & _). destruct (c_watch _ _ _ C fd W) as [X|[i X]].
  - apply fst_in_pair in X. destruct X as (id & X). destruct (c_obj _ _ _ C fd id X) as ((d & F & _ & N & _) & _). eauto.
  - apply fds_in in X. destruct X as (v & X). destruct (c_view _ _ _ C i fd v X) as ((d & F & _ & N & _ & VW & WN) & _). exists d. split; [exact F|].
    rewrite N. apply WN, VW, W.
Qed.
(** So is every descriptor of an object, also if it is not waited for at the moment. *)
Theorem C116_objects t fg pid log es fd id :
  started_with t -> In (fd, id) (p_objs (run (initial t fg pid log) es)) ->
  exists d, find fd (p_tab (run (initial t fg pid log) es)) = Some d /\ d_nb d = true /\ d_ce d = true.
Proof.
  intros S X. destruct (run_inv t fg pid log es S) as (H & C & _). destruct (c_obj _ _ _ C fd id X) as ((d & F & _ & N & CE) & _). eauto.
Qed.
Example C116_example :
  let p := run (initial usual false true true) (started ++ Begin 0 (JTelnet None) :: go 0 20 ++ Begin 0 (JAccept false) :: go 0 10 ++ go 1 20) in
  p_watched p = [9; 6; 7] /\ map (fun fd => match find fd (p_tab p) with Some d => d_what d | None => Null end) [9; 6; 7] = [Client; TelnetSock; Listen].
Proof. vm_compute. auto. Qed.

(** The pair of sockets is made nonblocking at both ends: the program of a process console has
    nonblocking standard input, output and error.  A program that does not expect it fails with
    EAGAIN when there is no input yet or when it writes faster than the daemon reads.
    server-process.c:323-324 *)
Theorem C116_program_refuted :
  ~ (forall t fg pid log es b fd d, started_with t -> In b (p_born (run (initial t fg pid log) es)) -> find fd (b_tab b) = Some d -> standard fd -> d_nb d = false).
Proof.
  intros X. set (es := started ++ Begin 0 (JProcess None) :: go 0 20).
  assert (B : In (first_born (run (initial usual false true true) es)) (p_born (run (initial usual false true true) es))) by (apply first_in; vm_compute; reflexivity).
  assert (F : find 0 (b_tab (first_born (run (initial usual false true true) es))) = Some (mkDsc ProgramEnd 13 true false)) by (vm_compute; reflexivity).
  assert (ST : standard 0) by (left; reflexivity).
  pose proof (X usual false true true es _ 0 _ usual_ok B F ST) as Y. discriminate Y.
Qed.

(** ** C117 *)
(** When every thread is between two functions, each descriptor that is open is one of the
    standard three, or one that the daemon was started with, or an object has it, or the daemon
    keeps it elsewhere: whichever calls failed, none was forgotten. *)
Theorem C117_none_lost t fg pid log es fd d :
  started_with t -> idle (run (initial t fg pid log) es) -> find fd (p_tab (run (initial t fg pid log) es)) = Some d ->
  standard fd \/ In (fd, d) t \/ In fd (map fst (p_objs (run (initial t fg pid log) es))) \/ In fd (map fst (p_files (run (initial t fg pid log) es))).
Proof.
  intros S ID F. destruct (run_inv t fg pid log es S) as (H & C & TG & TN). set (p := run (initial t fg pid log) es) in *.
  destruct (c_all _ _ _ C fd d F) as [X|[X|[X|[X|[i X]]]]]; auto. exfalso.
  destruct (nth_error (p_threads p) i) as [q|] eqn:E; [|rewrite (TN i E) in X; destruct X].
  assert (Q : q = Ret) by (unfold idle in ID; rewrite Forall_forall in ID; apply ID; eapply nth_error_In; eauto). subst q.
  pose proof (TG i _ E) as G. inversion G as [HE| | | | | | | | | | | | | | |]. rewrite <- HE in X. destruct X.
Qed.
(** The descriptor of an object refers to the open file that the object opened, in every state:
    it is not closed by anybody else, it is not another's, it is not a standard one, and it
    is not one that the daemon was started with. *)
Theorem C117_own t fg pid log es fd id :
  started_with t -> let p := run (initial t fg pid log) es in In (fd, id) (p_objs p) \/ In (fd, id) (p_files p) ->
  (exists d, find fd (p_tab p) = Some d /\ d_id d = id) /\ ~ standard fd /\ ~ In fd (map fst t).
Proof.
  intros S p X. destruct (run_inv t fg pid log es S) as (H & C & _). fold p in C.
  assert (NT : In fd (map fst (p_objs p)) \/ In fd (map fst (p_files p)) -> ~ standard fd -> ~ In fd (map fst t)).
  { intros Y NS I. apply fst_in_pair in I. destruct I as (d & I). destruct (c_ext _ _ _ C fd d I NS) as (_ & _ & A1 & A2 & _). tauto. }
  destruct X as [X|X]; [destruct (c_obj _ _ _ C fd id X) as ((d & F & E & _) & G & _)|destruct (c_file _ _ _ C fd id X) as ((d & F & E & _) & G & _)];
    (assert (NS : ~ standard fd) by (unfold standard; lia)); (split; [eauto|]); (split; [exact NS|]); apply NT; auto; [left|right]; eapply in_pair_fst; eauto.
Qed.
(** No two objects have one descriptor. *)
Theorem C117_distinct t fg pid log es :
  started_with t -> let p := run (initial t fg pid log) es in NoDup (map fst (p_objs p) ++ map fst (p_files p)).
Proof.
  intros S p. destruct (run_inv t fg pid log es S) as (H & C & _). fold p in C.
  pose proof (c_ondup _ _ _ C) as A. pose proof (c_fndup _ _ _ C) as B.
  assert (D : forall fd, In fd (map fst (p_objs p)) -> ~ In fd (map fst (p_files p))).
  { intros fd I. apply fst_in_pair in I. destruct I as (id & I). destruct (c_obj _ _ _ C fd id I) as (_ & _ & X & _). exact X. }
  induction (map fst (p_objs p)) as [|x l IH]; cbn [app]; [exact B|]. inversion A; subst. constructor.
  - rewrite in_app_iff. intros [Y|Y]; [auto|]. apply (D x); [left; reflexivity|exact Y].
  - apply IH; [assumption|]. intros fd I. apply D. right. exact I.
Qed.
(** After a start, a client, and a console that could not be connected at first. *)
Example C117_example :
  let p := run (initial usual false true true)
    (started ++ Begin 0 (JUnix None) :: go 0 5 ++ [Go 0 false] ++ go 0 5 ++ Begin 0 (JAccept false) :: go 0 10 ++ go 1 20 ++ Begin 0 (JUnix None) :: go 0 20) in
  idle p /\ map fst (p_objs p) = [9; 6; 7] /\ length (p_tab p) = 10%nat /\ p_alive p = true.
Proof. vm_compute. split; [repeat constructor|auto]. Qed.

(** If the daemon is started with standard input closed then the pipe that wakes its main loop
    has that number, and /dev/null is put in its place before the daemon is ready:
    the end of the pipe is lost.  (/dev/null is always readable, and the end of file that is then
    read from it is a fatal error.)  tpoll.c:162-176, 797-808; server.c:296-309 *)
Theorem C117_closed_stdin_refuted :
  ~ (forall t fg pid log es fd id, NoDup (map fst t) -> let p := run (initial t fg pid log) es in
       In (fd, id) (p_objs p) \/ In (fd, id) (p_files p) -> exists d, find fd (p_tab p) = Some d /\ d_id d = id).
Proof.
  intros X. set (t := [tty 1; tty 2]).
  destruct (X t false true true started 0 2%nat) as (d & F & D).
  - cbn. repeat constructor; cbn; intuition congruence.
  - right. vm_compute. auto 10.
  - vm_compute in F. injection F as <-. discriminate D.
Qed.

Print Assumptions C115_programs.
Print Assumptions C115_main.
Print Assumptions C115_alone.
Print Assumptions C115_standard.
Print Assumptions C115_accept_refuted.
Print Assumptions C115_thread_refuted.
Print Assumptions C115_inherited_refuted.
Print Assumptions C116_nonblocking.
Print Assumptions C116_objects.
Print Assumptions C116_program_refuted.
Print Assumptions C117_none_lost.
Print Assumptions C117_own.
Print Assumptions C117_distinct.
Print Assumptions C117_closed_stdin_refuted.
