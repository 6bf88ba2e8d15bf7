(** Proofs about descriptors: who holds which, in any interleaving. *)
From Coq Require FinFun.
From Verif Require Import Base BaseProof DescModel DescSpec.
Local Open Scope Z_scope.

(** ** Tables *)
Lemma find_in fd t d : find fd t = Some d -> In (fd, d) t.
Proof. induction t as [|[n e] t IH]; cbn [find]; [discriminate|]. destruct (Z.eqb_spec fd n) as [->|]; [intros X; injection X as ->; left; reflexivity|right; auto]. Qed.
Lemma find_fst fd t : find fd t <> None <-> In fd (map fst t).
Proof.
  induction t as [|[n e] t IH]; cbn [find map fst In]; [tauto|]. destruct (Z.eqb_spec fd n) as [->|N].
  - split; [auto|discriminate].
  - rewrite IH. split; [auto|intros [->|]; [contradiction|auto]].
Qed.
Lemma find_some fd t : In fd (map fst t) -> exists d, find fd t = Some d.
Proof. intros H. apply find_fst in H. destruct (find fd t); [eauto|contradiction]. Qed.
Lemma find_none fd t : ~ In fd (map fst t) -> find fd t = None.
Proof. intros H. destruct (find fd t) eqn:E; [|reflexivity]. exfalso. apply H. apply find_fst. congruence. Qed.
Lemma in_find fd d t : NoDup (map fst t) -> In (fd, d) t -> find fd t = Some d.
Proof.
  induction t as [|[n e] t IH]; cbn [find map fst]; intros ND I; [destruct I|]. inversion ND as [|? ? NI ND']; subst.
  destruct I as [E|I]; [injection E as -> ->; rewrite Z.eqb_refl; reflexivity|].
  destruct (Z.eqb_spec fd n) as [->|]; [|auto]. exfalso. apply NI. apply in_map_iff. exists (n, d). auto.
Qed.
Lemma find_put fd fd' d t : find fd' (put fd d t) = if fd' =? fd then (if is_open fd t then Some d else None) else find fd' t.
Proof.
  unfold is_open. induction t as [|[n e] t IH]; cbn [find put]; [destruct (fd' =? fd); reflexivity|].
  destruct (Z.eqb_spec fd n) as [->|N]; cbn [find].
  - destruct (Z.eqb_spec fd' n); reflexivity.
  - rewrite IH. destruct (Z.eqb_spec fd' n) as [->|]; [|reflexivity]. destruct (Z.eqb_spec n fd); [congruence|reflexivity].
Qed.
Lemma put_fst fd d t : map fst (put fd d t) = map fst t.
Proof. induction t as [|[n e] t IH]; cbn [put map fst]; [reflexivity|]. destruct (fd =? n); cbn [map fst]; congruence. Qed.
Lemma find_drop fd fd' t : find fd' (drop fd t) = if fd' =? fd then None else find fd' t.
Proof.
  unfold drop. induction t as [|[n e] t IH]; cbn [find filter fst]; [destruct (fd' =? fd); reflexivity|].
  destruct (Z.eqb_spec fd n) as [->|N]; cbn [negb].
  - rewrite IH. destruct (Z.eqb_spec fd' n); reflexivity.
  - cbn [find]. rewrite IH. destruct (Z.eqb_spec fd' n) as [->|]; [|reflexivity]. destruct (Z.eqb_spec n fd); [congruence|reflexivity].
Qed.
Lemma drop_nodup fd t : NoDup (map fst t) -> NoDup (map fst (drop fd t)).
Proof.
  unfold drop. induction t as [|[n e] t IH]; cbn [filter fst map]; [auto|]. intros ND. inversion ND as [|? ? NI ND']; subst.
  destruct (negb (fd =? n)); cbn [map fst]; [|auto]. constructor; [|auto]. intros I. apply NI. apply in_map_iff in I. destruct I as (x & <- & I).
  apply filter_In in I. apply in_map. tauto.
Qed.
Lemma lowest_spec n t : forall fd, is_open (lowest n fd t) t = false \/
  (lowest n fd t = fd + Z.of_nat n /\ forall k, (k < n)%nat -> is_open (fd + Z.of_nat k) t = true).
Proof.
  induction n as [|n IH]; intros fd; cbn [lowest].
  - right. split; [lia|]. intros; lia.
  - destruct (is_open fd t) eqn:O; [|auto]. destruct (IH (fd + 1)) as [F|[E A]]; [auto|]. right. split; [lia|].
    intros k K. destruct k; [rewrite Z.add_0_r; exact O|]. replace (fd + Z.of_nat (S k)) with (fd + 1 + Z.of_nat k) by lia. apply A. lia.
Qed.
Lemma is_open_in fd t : is_open fd t = true <-> In fd (map fst t).
Proof. unfold is_open. rewrite <- find_fst. destruct (find fd t); split; congruence. Qed.
Lemma fresh_free t : NoDup (map fst t) -> ~ In (fresh t) (map fst t).
Proof.
  intros ND I. unfold fresh in *. apply is_open_in in I. destruct (lowest_spec (length t) t 0) as [F|[E A]]; [congruence|].
  set (L := map Z.of_nat (List.seq 0 (length t))).
  assert (NL : NoDup L).
  { unfold L. apply FinFun.Injective_map_NoDup; [intros x y H; lia|apply seq_NoDup]. }
  assert (IL : incl L (map fst t)).
  { intros x X. unfold L in X. apply in_map_iff in X. destruct X as (k & <- & K). apply in_seq in K. apply is_open_in. rewrite <- (Z.add_0_l (Z.of_nat k)). apply A. lia. }
  assert (IL' : incl (map fst t) L).
  { apply NoDup_length_incl; auto. unfold L. rewrite !map_length, seq_length. lia. }
  apply is_open_in in I. rewrite E in I. apply IL' in I. unfold L in I. apply in_map_iff in I. destruct I as (k & EQ & K). apply in_seq in K. lia.
Qed.
Lemma lowest_ge n t : forall fd, fd <= lowest n fd t.
Proof. induction n as [|n IH]; intros fd; cbn [lowest]; [lia|]. destruct (is_open fd t); [|lia]. specialize (IH (fd + 1)). lia. Qed.
Lemma fresh_ge t : 0 <= fresh t.
Proof. apply lowest_ge. Qed.

(** ** What a thread holds *)
(** What is behind it, O_NONBLOCK, FD_CLOEXEC, watched. *)
Record vd := mkV { v_what : what; v_nb : bool; v_ce : bool; v_w : bool }.
Definition held := list (Z * vd).
Definition fds (H : held) : list Z := map fst H.
Definition setv (fd : Z) (v : vd) (H : held) : held := map (fun e => if fd =? fst e then (fd, v) else e) H.
Definition delv (fd : Z) (H : held) : held := filter (fun e => negb (fd =? fst e)) H.
Lemma setv_fds fd v H : fds (setv fd v H) = fds H.
Proof. unfold fds, setv. rewrite map_map. apply map_ext. intros [n e]. cbn [fst]. destruct (Z.eqb_spec fd n); cbn; congruence. Qed.
Lemma in_setv fd v H x u : In (x, u) (setv fd v H) -> x = fd /\ u = v /\ In fd (fds H) \/ x <> fd /\ In (x, u) H.
Proof.
  unfold setv. intros I. apply in_map_iff in I. destruct I as ([n e] & E & I). cbn [fst] in E. destruct (Z.eqb_spec fd n) as [->|N].
  - injection E as <- <-. left. split; [reflexivity|]. split; [reflexivity|]. apply in_map_iff. exists (n, e). auto.
  - injection E as <- <-. right. auto.
Qed.
Lemma in_delv fd H x u : In (x, u) (delv fd H) <-> x <> fd /\ In (x, u) H.
Proof. unfold delv. rewrite filter_In. cbn [fst]. rewrite negb_true_iff, Z.eqb_neq. intuition congruence. Qed.
Lemma fds_delv fd H x : In x (fds (delv fd H)) <-> x <> fd /\ In x (fds H).
Proof.
  unfold fds. rewrite !in_map_iff. split.
  - intros ([n e] & <- & I). apply in_delv in I. cbn [fst] in *. destruct I. split; [auto|]. exists (n, e). auto.
  - intros (N & [n e] & <- & I). exists (n, e). split; [reflexivity|]. apply in_delv. auto.
Qed.
Lemma delv_nodup fd H : NoDup (fds H) -> NoDup (fds (delv fd H)).
Proof.
  unfold fds, delv. induction H as [|[n e] H IH]; cbn [filter fst map]; [auto|]. intros ND. inversion ND as [|? ? NI ND']; subst.
  destruct (negb (fd =? n)); cbn [map fst]; [|auto]. constructor; [|auto]. intros I. apply NI. apply in_map_iff in I. destruct I as (x & <- & I).
  apply filter_In in I. apply in_map. tauto.
Qed.

Definition yes : answer := mkAns true (-1) (-1).
Definition no : answer := mkAns false (-1) (-1).
(** What a thread that starts a program may hold. *)
Definition may_start (H : held) (cs : list cstep) : Prop :=
  (exists f0 f1 v1, cs = process_child f0 f1 /\ f0 <> f1 /\ 2 < f0 /\ 2 < f1 /\ In (f1, v1) H /\ v_what v1 = ProgramEnd /\ v_nb v1 = true /\
     (forall fd v, In (fd, v) H -> v_ce v = true)) \/
  (exists null v, cs = reset_child null /\ 2 < null /\ H = [(null, v)] /\ v_what v = Null /\ v_nb v = false) \/
  (cs = reset_child (-1) /\ H = []).

(** A program that is fine for a thread that holds [H]. *)
Inductive good : held -> prog -> Prop :=
| G_ret : good [] Ret
| G_die H : good H Die
| G_open H w nb k : good H (k no) -> (forall fd, 2 < fd -> ~ In fd (fds H) -> good ((fd, mkV w nb false false) :: H) (k (mkAns true fd (-1)))) ->
    good H (Do (Open w nb) k)
| G_pair H w0 w1 k : w0 <> Client -> w1 <> Client -> good H (k no) ->
    (forall f0 f1, 2 < f0 -> 2 < f1 -> f0 <> f1 -> ~ In f0 (fds H) -> ~ In f1 (fds H) ->
       good ((f1, mkV w1 false false false) :: (f0, mkV w0 false false false) :: H) (k (mkAns true f0 f1))) ->
    good H (Do (Pair w0 w1) k)
| G_cloexec H fd v k : In (fd, v) H -> good H (k no) -> good (setv fd (mkV (v_what v) (v_nb v) true (v_w v)) H) (k yes) -> good H (Do (Cloexec fd) k)
| G_nonblock H fd v k : In (fd, v) H -> good H (k no) -> good (setv fd (mkV (v_what v) true (v_ce v) (v_w v)) H) (k yes) -> good H (Do (Nonblock fd) k)
| G_blocking H fd v k : In (fd, v) H -> v_w v = false -> good H (k no) -> good (setv fd (mkV (v_what v) false (v_ce v) false) H) (k yes) ->
    good H (Do (Blocking fd) k)
| G_watch H fd v k : In (fd, v) H -> v_nb v = true -> good (setv fd (mkV (v_what v) true (v_ce v) true) H) (k yes) -> good H (Do (Watch fd) k)
| G_unwatch H fd v k : In (fd, v) H -> good (setv fd (mkV (v_what v) (v_nb v) (v_ce v) false) H) (k yes) -> good H (Do (Unwatch fd) k)
| G_close H fd v k : In (fd, v) H -> v_w v = false -> good (delv fd H) (k yes) -> good (delv fd H) (k no) -> good H (Do (Close fd) k)
| G_dup H fd v to k : In (fd, v) H -> standard to -> good H (k yes) -> good H (k no) -> good H (Do (Dup fd to) k)
| G_start H cs k : may_start H cs -> good H (k yes) -> good H (k no) -> good H (Do (Start cs) k)
| G_try H k : good H (k yes) -> good H (k no) -> good H (Do Try k)
| G_own H fd v k : In (fd, v) H -> v_ce v = true -> v_nb v = true -> good (delv fd H) (k yes) -> good H (Do (Own fd) k)
| G_file H fd v k : In (fd, v) H -> v_ce v = true -> v_w v = false -> good (delv fd H) (k yes) -> good H (Do (File fd) k)
| G_thread H fd v q k : In (fd, v) H -> v_what v = Client -> good [(fd, v)] q -> good (delv fd H) (k yes) -> good H (k no) -> good H (Thread q k).

(** Flags of a descriptor that an object has. *)
Definition owned (v : vd) : Prop := v_ce v = true /\ v_nb v = true.

Ltac eqb_all := repeat match goal with
  | |- context[?a =? ?a] => rewrite (Z.eqb_refl a)
  | N : ?a <> ?b |- context[?a =? ?b] => rewrite (proj2 (Z.eqb_neq a b) N)
  | N : ?b <> ?a |- context[?a =? ?b] => rewrite (proj2 (Z.eqb_neq a b) (not_eq_sym N))
  end.
Ltac tidy := cbn [setv delv map filter fst snd negb ok fd1 fd2 yes no v_what v_nb v_ce v_w fds]; eqb_all; cbn [setv delv map filter fst snd negb v_what v_nb v_ce v_w].
Ltac neqs := repeat match goal with
  | N : ~ In ?x (fds ((?a, ?v) :: ?l)) |- _ =>
      assert (x <> a) by (intros ->; apply N; left; reflexivity);
      assert (~ In x (fds l)) by (intros ?; apply N; right; assumption); clear N
  end.
Ltac one := match goal with
  | |- good _ (if ok yes then _ else _) => cbn [ok yes]
  | |- good _ (if ok no then _ else _) => cbn [ok no]
  | |- good _ Ret => apply G_ret
  | |- good _ Die => apply G_die
  | |- good _ (Do (Open _ _) _) => apply G_open; [|intros ? ? ?; neqs]
  | |- good _ (Do (Pair _ _) _) => apply G_pair; [discriminate|discriminate| |intros ? ? ? ? ? ? ?; neqs]
  | |- good _ (Do (Cloexec _) _) => eapply G_cloexec; [cbn [In]; eauto| |]
  | |- good _ (Do (Nonblock _) _) => eapply G_nonblock; [cbn [In]; eauto| |]
  | |- good _ (Do (Blocking _) _) => eapply G_blocking; [cbn [In]; eauto|reflexivity| |]
  | |- good _ (Do (Watch _) _) => eapply G_watch; [cbn [In]; eauto|try reflexivity|]
  | |- good _ (Do (Unwatch _) _) => eapply G_unwatch; [cbn [In]; eauto|]
  | |- good _ (Do (Close _) _) => eapply G_close; [cbn [In]; eauto|reflexivity| |]
  | |- good _ (Do Try _) => apply G_try
  | |- good _ (Do (Own _) _) => eapply G_own; [cbn [In]; eauto|try reflexivity|try reflexivity|]
  | |- good _ (Do (File _) _) => eapply G_file; [cbn [In]; eauto|try reflexivity|try reflexivity|]
  end; tidy.
Ltac unf := unfold set_fd_nonblocking, set_fd_closed_on_exec, set_fd_blocking, must, seq.
Ltac go := unf; tidy; repeat one.

Lemma let_go_some fd v p : good [] p -> good [(fd, v)] (let_go (Some fd) p).
Proof. intros G. cbn [let_go]. go; exact G. Qed.

Definition starts_with (j : job) (H : held) : Prop :=
  match subject j with
  | None => H = []
  | Some fd => if of_file j then exists v, H = [(fd, v)] /\ v_w v = false else exists v, H = [(fd, v)] /\ owned v /\ (v_w v = true -> v_nb v = true)
  end.
Ltac with_old G := match goal with |- good ?H (let_go ?o ?q) => assert (G : good [] q) end.
Definition maybe (H : held) (o : option Z) : Prop := match o with None => H = [] | Some fd => exists v, H = [(fd, v)] end.
Lemma let_go_ok H o p : maybe H o -> good [] p -> good H (let_go o p).
Proof. destruct o as [fd|]; cbn [maybe]; intros X G; [destruct X as (v & ->); apply let_go_some; exact G|subst; exact G]. Qed.
Lemma telnet_good H o : maybe H o -> good H (connect_telnet_obj o).
Proof. intros X. unfold connect_telnet_obj. apply let_go_ok; [exact X|]. go. Qed.
Lemma unix_good H o : maybe H o -> good H (connect_unixsock_obj o).
Proof. intros X. unfold connect_unixsock_obj. apply let_go_ok; [exact X|]. go. Qed.
Lemma process_good H o : maybe H o -> good H (connect_process_obj o).
Proof.
  intros X. unfold connect_process_obj. apply let_go_ok; [exact X|]. go.
  apply G_start; [|go|go].
  left. do 3 eexists. split; [reflexivity|]. split; [auto|]. split; [auto|]. split; [auto|]. split; [left; reflexivity|]. split; [reflexivity|]. split; [reflexivity|].
  intros fd v I. cbn [In] in I. destruct I as [E|[E|[]]]; injection E as <- <-; reflexivity.
Qed.
Lemma serial_good H o : maybe H o -> good H (open_serial_obj o).
Proof.
  intros X. unfold open_serial_obj. match goal with |- good _ (let_go_serial _ ?q) => assert (G : good [] q) by go end.
  destruct o as [fd|]; cbn [let_go_serial maybe] in *; [|subst; exact G]. destruct X as (v & ->). go. all: exact G.
Qed.
Lemma test_good H o : maybe H o -> good H (open_test_obj o).
Proof. intros X. unfold open_test_obj. apply let_go_ok; [exact X|]. go. Qed.
Lemma ipmi_good H o : maybe H o -> good H (connect_ipmi_obj o).
Proof. intros X. unfold connect_ipmi_obj. apply let_go_ok; [exact X|]. go. Qed.
Lemma log_good l H o : maybe H o -> good H (open_logfile_obj l o).
Proof. intros X. unfold open_logfile_obj. apply let_go_ok; [exact X|]. go; destruct l; go. Qed.
Lemma daemon_log_good o H p : match o with None => H = [] | Some fd => exists v, H = [(fd, v)] /\ v_w v = false end -> good [] p -> good H (open_daemon_logfile o p).
Proof.
  intros X G. destruct o as [fd|].
  - destruct X as ([w nb ce wt] & -> & V). cbn [v_w] in V. subst wt. unfold open_daemon_logfile. go; exact G.
  - subst. unfold open_daemon_logfile. go; exact G.
Qed.

Lemma notify_good : good [] inevent_init.
Proof. unfold inevent_init. go. Qed.
Lemma accept_good q : good [] (accept_client q).
Proof.
  unfold accept_client. go. eapply G_thread; [left; reflexivity|reflexivity| |tidy; go|tidy; go].
  unfold process_client, destroy_req, create_client_obj. go. destruct q; go.
Qed.
Lemma resets_good H p n null : may_start H (reset_child null) -> good H p -> good H (resets n null p).
Proof. intros M G. induction n as [|n IH]; cbn [resets]; [exact G|]. unfold seq. apply G_start; auto. Qed.
Lemma reset_good n : good [] (perform_reset n).
Proof.
  unfold perform_reset. apply G_open.
  - cbn [ok no]. apply resets_good; [right; right; auto|apply G_ret].
  - intros fd F _. cbn [ok fd1]. apply resets_good.
    + right. left. do 2 eexists. split; [reflexivity|]. split; [exact F|]. split; [reflexivity|]. split; reflexivity.
    + go.
Qed.
Lemma job_good j H : starts_with j H -> good H (code j).
Proof.
  destruct j; unfold starts_with; cbn [subject of_file code]; intros X.
  1-7: match type of X with match ?o with _ => _ end => assert (M : maybe H o) by (destruct o; [destruct X as (v & -> & _); cbn; eauto|exact X]) end.
  - apply telnet_good; auto.
  - apply unix_good; auto.
  - apply process_good; auto.
  - apply serial_good; auto.
  - apply test_good; auto.
  - apply ipmi_good; auto.
  - apply log_good; auto.
  - apply daemon_log_good; [exact X|apply G_ret].
  - subst. apply notify_good.
  - destruct X as ([w nb ce wt] & -> & (A & B) & C). cbn in A, B. subst. unfold watch_obj. go.
  - destruct X as ([w nb ce wt] & -> & (A & B) & C). cbn in A, B. subst. unfold unwatch_obj. go.
  - destruct X as (v & -> & _). apply let_go_some, G_ret.
  - subst. apply accept_good.
  - subst. apply reset_good.
Qed.
Lemma startup_good fg pid log : good [] (startup fg pid log).
Proof.
  unfold startup, tpoll_create, process_config, write_pidfile, create_listen_socket, begin_daemonize, end_daemonize. go.
  destruct fg.
  - go. destruct pid; go.
  - go. destruct pid; go. all: destruct log; unfold open_daemon_logfile; go.
    all: repeat (eapply G_dup; [cbn [In]; eauto|unfold standard; auto| |]; go).
Qed.
